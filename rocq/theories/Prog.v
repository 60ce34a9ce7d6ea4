(** Programs made of atomic actions.

    A Go handler is a [prog]: a sequence of atomic steps on the shared
    state (a critical section protected by one mutex, one unsynchronised
    read or write, or one message sent), creation of tasks
    (time.AfterFunc, go func), or a panic.  The same program is run in one piece
    ([run]) or interleaved with other programs ([pstep]). *)
From Verif Require Import Bytes.

(** Why a goroutine panics. [OutOfFuel] is not a Go panic: it marks
    exhaustion of the recursion bound of the model. *)
Inductive crash := NilDeref | BadIndex | DivByZero | ExplicitPanic | OutOfFuel.

Inductive prog (St Task A : Type) : Type :=
| Ret (a : A)
| Crash (why : crash)
| Act {X : Type} (f : St -> St * X) (k : X -> prog St Task A)
| Fork (t : Task) (k : prog St Task A).
Arguments Ret {St Task A}. Arguments Crash {St Task A}.
Arguments Act {St Task A X}. Arguments Fork {St Task A}.

Fixpoint pbind {St Task A B : Type} (p : prog St Task A) (q : A -> prog St Task B) : prog St Task B :=
  match p with
  | Ret a => q a
  | Crash w => Crash w
  | Act f k => Act f (λ x, pbind (k x) q)
  | Fork t k => Fork t (pbind k q)
  end.

Notation "'do' x <- p ; q" := (pbind p (λ x, q))
  (at level 200, x pattern, p at level 100, q at level 200, right associativity).
Notation "p >>> q" := (pbind p (λ _ : unit, q)) (at level 199, right associativity).

Section actions.
Context {St Task : Type}.
(** Reading the state is an atomic step that leaves it unchanged. *)
Definition pread {X} (f : St -> X) : prog St Task X := Act (λ s, (s, f s)) Ret.
Definition pmodify (f : St -> St) : prog St Task unit := Act (λ s, (f s, tt)) Ret.
Definition patomic {X} (f : St -> St * X) : prog St Task X := Act f Ret.
Definition pfork (t : Task) : prog St Task unit := Fork t (Ret tt).
Definition pskip : prog St Task unit := Ret tt.
Definition pwhen (b : bool) (p : prog St Task unit) : prog St Task unit := if b then p else pskip.
End actions.

(* ---------------------------------------------------------------- *)
(** * Running one program to completion *)

Inductive result (A : Type) := Done (a : A) | Crashed (why : crash).
Arguments Done {A}. Arguments Crashed {A}.

(** Final state, tasks created (in order), result.  After a panic the
    effects already performed remain. *)
Fixpoint run {St Task A : Type} (p : prog St Task A) (s : St) : St * list Task * result A :=
  match p with
  | Ret a => (s, [], Done a)
  | Crash w => (s, [], Crashed w)
  | Act f k => let '(s', x) := f s in run (k x) s'
  | Fork t k => let '(s', ts, r) := run k s in (s', t :: ts, r)
  end.

(* ---------------------------------------------------------------- *)
(** * Interleaving *)

(** Shared state, running goroutines, tasks waiting to be started, and
    the panics that occurred. *)
Record pool (St Task : Type) : Type := mkpool {
  p_st : St;
  p_threads : list (prog St Task unit);
  p_tasks : list Task;
  p_crashes : list crash
}.
Arguments mkpool {St Task}. Arguments p_st {St Task}. Arguments p_threads {St Task}.
Arguments p_tasks {St Task}. Arguments p_crashes {St Task}.

Section pool.
Context {St Task : Type}.
(** [start t] is the body of task [t]; [req p] says that the environment
    may start [p] at any time (an incoming request, the periodic
    timer); [env s s'] are the changes the environment makes to the state (the
    clock). *)
Context (start : Task -> prog St Task unit) (req : prog St Task unit -> Prop) (env : St -> St -> Prop).

Inductive pstep : pool St Task -> pool St Task -> Prop :=
| step_act s l1 X (f : St -> St * X) k l2 ts cr s' x :
    f s = (s', x) ->
    pstep (mkpool s (l1 ++ Act f k :: l2) ts cr) (mkpool s' (l1 ++ k x :: l2) ts cr)
| step_fork s l1 t k l2 ts cr :
    pstep (mkpool s (l1 ++ Fork t k :: l2) ts cr) (mkpool s (l1 ++ k :: l2) (ts ++ [t]) cr)
| step_ret s l1 a l2 ts cr :
    pstep (mkpool s (l1 ++ Ret a :: l2) ts cr) (mkpool s (l1 ++ l2) ts cr)
| step_crash s l1 w l2 ts cr :
    pstep (mkpool s (l1 ++ Crash w :: l2) ts cr) (mkpool s (l1 ++ l2) ts (w :: cr))
| step_start s l ts1 t ts2 cr :
    pstep (mkpool s l (ts1 ++ t :: ts2) cr) (mkpool s (l ++ [start t]) (ts1 ++ ts2) cr)
| step_req s l ts cr p :
    req p -> pstep (mkpool s l ts cr) (mkpool s (l ++ [p]) ts cr)
| step_env s s' l ts cr :
    env s s' -> pstep (mkpool s l ts cr) (mkpool s' l ts cr).

(** All pools reachable from [c]. *)
Inductive psteps : pool St Task -> pool St Task -> Prop :=
| psteps_refl c : psteps c c
| psteps_trans c1 c2 c3 : psteps c1 c2 -> pstep c2 c3 -> psteps c1 c3.
End pool.
