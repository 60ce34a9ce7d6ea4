(** Goroutines at the level of single accesses to the shared maps.

    In Prog.v a critical section is one step.  Here a goroutine takes and releases locks (Locks.v) and accesses the shared state in
    between, one access at a time, and the scheduler may switch goroutines after each of these steps. *)
From Verif Require Import Bytes Prog Locks.
Open Scope string_scope.

(** As [prog], with calls of sync.RWMutex. *)
Inductive mprog (St Task A : Type) : Type :=
| MRet (a : A)
| MCrash (why : crash)
| MAct {X : Type} (f : St -> St * X) (k : X -> mprog St Task A)
| MFork (t : Task) (k : mprog St Task A)
| MSync (o : op) (k : mprog St Task A).
Arguments MRet {St Task A}. Arguments MCrash {St Task A}. Arguments MAct {St Task A X}.
Arguments MFork {St Task A}. Arguments MSync {St Task A}.

Fixpoint mbind {St Task A B : Type} (p : mprog St Task A) (q : A -> mprog St Task B) : mprog St Task B :=
  match p with
  | MRet a => q a
  | MCrash w => MCrash w
  | MAct f k => MAct f (λ x, mbind (k x) q)
  | MFork t k => MFork t (mbind k q)
  | MSync o k => MSync o (mbind k q)
  end.

Notation "'mdo' x <- p ; q" := (mbind p (λ x, q))
  (at level 200, x pattern, p at level 100, q at level 200, right associativity).
Notation "p >>>> q" := (mbind p (λ _ : unit, q)) (at level 199, right associativity).

Section actions.
Context {St Task : Type}.
(** One access that changes nothing, one that changes the state, one call of a lock. *)
Definition mread {X} (f : St -> X) : mprog St Task X := MAct (λ s, (s, f s)) MRet.
Definition mmodify (f : St -> St) : mprog St Task unit := MAct (λ s, (f s, tt)) MRet.
Definition msync (o : op) : mprog St Task unit := MSync o (MRet tt).
Definition mfork (t : Task) : mprog St Task unit := MFork t (MRet tt).
Definition mskip : mprog St Task unit := MRet tt.
Definition mwhen (b : bool) (p : mprog St Task unit) : mprog St Task unit := if b then p else mskip.
(** A critical section for reading and one for writing. *)
Definition rlocked {X} (k : string) (p : mprog St Task X) : mprog St Task X :=
  msync (RLock k) >>>> mdo x <- p; msync (RUnlock k) >>>> MRet x.
Definition wlocked {X} (k : string) (p : mprog St Task X) : mprog St Task X :=
  msync (Lock k) >>>> mdo x <- p; msync (Unlock k) >>>> MRet x.
End actions.

(** Shared state, locks, goroutines, waiting tasks, panics, and whether the process has died. *)
Record fpool (St Task : Type) : Type := mkfpool {
  f_st : St;
  f_locks : gmap string rw;
  f_threads : list (mprog St Task unit);
  f_tasks : list Task;
  f_crashes : list crash;
  f_dead : bool
}.
Arguments mkfpool {St Task}. Arguments f_st {St Task}. Arguments f_locks {St Task}. Arguments f_threads {St Task}.
Arguments f_tasks {St Task}. Arguments f_crashes {St Task}. Arguments f_dead {St Task}.

Section fpool.
Context {St Task : Type}.
(** As in Prog.v. *)
Context (start : Task -> mprog St Task unit) (req : mprog St Task unit -> Prop) (env : St -> St -> Prop).

Inductive fstep : fpool St Task -> fpool St Task -> Prop :=
| fstep_act s L l1 X (f : St -> St * X) k l2 ts cr :
    fstep (mkfpool s L (l1 ++ MAct f k :: l2) ts cr false) (mkfpool (f s).1 L (l1 ++ k (f s).2 :: l2) ts cr false)
| fstep_sync s L l1 o k l2 ts cr L' more :
    exec L o = Goes L' more ->
    fstep (mkfpool s L (l1 ++ MSync o k :: l2) ts cr false) (mkfpool s L' (l1 ++ foldr MSync k more :: l2) ts cr false)
| fstep_fatal s L l1 o k l2 ts cr :
    exec L o = Dies ->
    fstep (mkfpool s L (l1 ++ MSync o k :: l2) ts cr false) (mkfpool s L (l1 ++ MSync o k :: l2) ts cr true)
| fstep_fork s L l1 t k l2 ts cr :
    fstep (mkfpool s L (l1 ++ MFork t k :: l2) ts cr false) (mkfpool s L (l1 ++ k :: l2) (ts ++ [t]) cr false)
| fstep_ret s L l1 a l2 ts cr :
    fstep (mkfpool s L (l1 ++ MRet a :: l2) ts cr false) (mkfpool s L (l1 ++ l2) ts cr false)
| fstep_crash s L l1 w l2 ts cr :
    fstep (mkfpool s L (l1 ++ MCrash w :: l2) ts cr false) (mkfpool s L (l1 ++ l2) ts (w :: cr) false)
| fstep_start s L l ts1 t ts2 cr :
    fstep (mkfpool s L l (ts1 ++ t :: ts2) cr false) (mkfpool s L (l ++ [start t]) (ts1 ++ ts2) cr false)
| fstep_req s L l ts cr p :
    req p -> fstep (mkfpool s L l ts cr false) (mkfpool s L (l ++ [p]) ts cr false)
| fstep_env s s' L l ts cr :
    env s s' -> fstep (mkfpool s L l ts cr false) (mkfpool s' L l ts cr false).

Inductive fsteps : fpool St Task -> fpool St Task -> Prop :=
| fsteps_refl c : fsteps c c
| fsteps_trans c1 c2 c3 : fsteps c1 c2 -> fstep c2 c3 -> fsteps c1 c3.
End fpool.
