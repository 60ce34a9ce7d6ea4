(** Reasoning about programs: sequential runs, invariants under every
    interleaving, and an executable scheduler for counterexamples. *)
From Verif Require Import Bytes Prog.
From Coq Require Import Lia.

(* ---------------------------------------------------------------- *)
(** * Sequential runs *)

Lemma run_bind {St Task A B} (p : prog St Task A) (q : A -> prog St Task B) s :
  run (pbind p q) s =
  match run p s with
  | (s1, t1, Done a) => match run (q a) s1 with (s2, t2, r) => (s2, (t1 ++ t2)%list, r) end
  | (s1, t1, Crashed w) => (s1, t1, Crashed w)
  end.
Proof.
  revert s. induction p as [a|w|X f k IH|t k IH]; intros s; cbn [pbind run].
  - by destruct (run (q a) s) as [[s2 t2] r].
  - done.
  - destruct (f s) as [s' x]. apply IH.
  - rewrite IH. destruct (run k s) as [[s1 t1] [a|w]]; [|done]. by destruct (run (q a) s1) as [[s2 t2] r].
Qed.

(* ---------------------------------------------------------------- *)
(** * Safety under interference

    [safe Q p s]: program [p], about to run when the state is [s], only
    performs actions that keep [I] and move along [R], creates only tasks satisfying
    [tok], panics only as [cok] allows and returns values
    satisfying [Q], provided that between any two of its actions the others
    move along [R] and keep [I]. *)
Section safe.
Context {St Task : Type}.
Context (I : St -> Prop) (R : St -> St -> Prop) (tok : Task -> St -> Prop) (cok : crash -> Prop).

Fixpoint safe {A} (Q : A -> St -> Prop) (p : prog St Task A) (s : St) : Prop :=
  match p with
  | Ret a => Q a s
  | Crash w => cok w
  | Act f k => forall s1, R s s1 -> I s1 ->
      I (f s1).1 /\ R s1 (f s1).1 /\ safe Q (k (f s1).2) (f s1).1
  | Fork t k => tok t s /\ safe Q k s
  end.

Context `{!PreOrder R}.
Context (tok_stable : forall t s s', tok t s -> R s s' -> tok t s').

Lemma safe_stable {A} (Q : A -> St -> Prop) p s s' :
  (forall a x y, Q a x -> R x y -> Q a y) -> safe Q p s -> R s s' -> safe Q p s'.
Proof using All.
  intros HQ. revert s s'. induction p as [a|w|X f k IH|t k IH]; intros s s' H HR; cbn in *.
  - eauto.
  - done.
  - intros s1 H1 H2. apply H; [by transitivity s'|done].
  - destruct H as [Ht H]. split; eauto.
Qed.

Lemma safe_stable_T {A} (p : prog St Task A) s s' : safe (λ _ _, True) p s -> R s s' -> safe (λ _ _, True) p s'.
Proof using All. intros H1 H2. by eapply (safe_stable (λ _ _, True)). Qed.

Lemma safe_bind {A B} (Q : B -> St -> Prop) (p : prog St Task A) (q : A -> prog St Task B) s :
  safe (λ a x, safe Q (q a) x) p s -> safe Q (pbind p q) s.
Proof using.
  clear. revert s. induction p as [a|w|X f k IH|t k IH]; intros s H; cbn in *; [done..| |].
  - intros s1 H1 H2. destruct (H s1 H1 H2) as (? & ? & ?). eauto.
  - destruct H. eauto.
Qed.

Lemma safe_weaken {A} (Q Q' : A -> St -> Prop) p s :
  (forall a x, Q a x -> Q' a x) -> safe Q p s -> safe Q' p s.
Proof using.
  clear. intros HQ. revert s. induction p as [a|w|X f k IH|t k IH]; intros s H; cbn in *; [eauto..| |].
  - intros s1 H1 H2. destruct (H s1 H1 H2) as (? & ? & ?). eauto.
  - destruct H. eauto.
Qed.

Lemma safe_moves {A} (Q : A -> St -> Prop) p s : safe Q p s -> safe (λ a x, Q a x /\ R s x) p s.
Proof using PreOrder0.
  revert s. induction p as [a|w|X f k IH|t k IH]; intros s H; cbn in *.
  - split; [done|reflexivity].
  - done.
  - intros s1 H1 H2. destruct (H s1 H1 H2) as (A1 & A2 & A3). split_and!; auto.
    eapply safe_weaken; [|by apply IH]. intros a x [B1 B2]. split; [done|].
    transitivity s1; [done|]. by transitivity (f s1).1.
  - destruct H as [Ht H]. split; [done|]. by apply IH.
Qed.

Lemma safe_run {A} (Q : A -> St -> Prop) p s : I s -> safe Q p s ->
  match run p s with
  | (s', ts, Done a) => I s' /\ R s s' /\ Q a s' /\ Forall (λ t, tok t s') ts
  | (s', ts, Crashed w) => I s' /\ R s s' /\ cok w /\ Forall (λ t, tok t s') ts
  end.
Proof using All.
  revert s. induction p as [a|w|X f k IH|t k IH]; intros s HI H; cbn in *.
  - split_and!; auto; reflexivity.
  - split_and!; auto; reflexivity.
  - destruct (H s (reflexivity _) HI) as (H1 & H2 & H3). destruct (f s) as [s' x]. cbn in *.
    specialize (IH x s' H1 H3). destruct (run (k x) s') as [[s2 ts] [a|w]];
      destruct IH as (? & ? & ? & ?); split_and!; auto; by transitivity s'.
  - destruct H as [Ht H]. specialize (IH s HI H). destruct (run k s) as [[s2 ts] [a|w]];
      destruct IH as (? & ? & ? & ?); split_and!; auto; constructor; eauto.
Qed.

(** Invariants of pools. *)
Context (start : Task -> prog St Task unit) (req : prog St Task unit -> Prop) (env : St -> St -> Prop).

Definition pool_ok (c : pool St Task) : Prop :=
  I (p_st c) /\ Forall (λ p, safe (λ _ _, True) p (p_st c)) (p_threads c) /\
  Forall (λ t, tok t (p_st c)) (p_tasks c) /\ Forall cok (p_crashes c).

Context (start_safe : forall t s, tok t s -> safe (λ _ _, True) (start t) s).
Context (req_safe : forall p s, req p -> I s -> safe (λ _ _, True) p s).
Context (env_safe : forall s s', env s s' -> I s -> I s' /\ R s s').

Lemma pool_step c c' : pstep start req env c c' -> pool_ok c -> pool_ok c' /\ R (p_st c) (p_st c').
Proof using All.
  intros H (HI & HT & HK & HC). destruct H as
    [s l1 X f k l2 ts cr s' x E|s l1 t k l2 ts cr|s l1 a l2 ts cr|s l1 w l2 ts cr|s l ts1 t ts2 cr|s l ts cr p Hp|s s' l ts cr He];
    cbn [p_st p_threads p_tasks p_crashes] in *.
  - apply Forall_app in HT as [H1 H2]. apply Forall_cons in H2 as [H2 H3].
    destruct (H2 s (reflexivity _) HI) as (A1 & A2 & A3). rewrite E in *. cbn in *.
    split; [|done]. split_and!; cbn; auto.
    + apply Forall_app. split; [|constructor]; auto.
      * eapply Forall_impl; [exact H1|]. intros p Hp. cbn in *. by eapply safe_stable_T.
      * eapply Forall_impl; [exact H3|]. intros p Hp. cbn in *. by eapply safe_stable_T.
    + eapply Forall_impl; [exact HK|]. intros p Hp. cbn in *. by eapply tok_stable.
  - apply Forall_app in HT as [H1 H2]. apply Forall_cons in H2 as [[H2 H2'] H3].
    split; [|reflexivity]. split_and!; cbn; auto.
    + apply Forall_app. auto.
    + apply Forall_app. auto.
  - apply Forall_app in HT as [H1 H2]. apply Forall_cons in H2 as [H2 H3].
    split; [|reflexivity]. split_and!; cbn; auto. apply Forall_app. auto.
  - apply Forall_app in HT as [H1 H2]. apply Forall_cons in H2 as [H2 H3].
    split; [|reflexivity]. split_and!; cbn; auto. apply Forall_app. auto.
  - apply Forall_app in HK as [H1 H2]. apply Forall_cons in H2 as [H2 H3].
    split; [|reflexivity]. split_and!; cbn; auto; apply Forall_app; auto.
  - split; [|reflexivity]. split_and!; cbn; auto. apply Forall_app. auto.
  - destruct (env_safe s s' He HI) as [A1 A2]. split; [|done]. split_and!; cbn; auto.
    + eapply Forall_impl; [exact HT|]. intros p Hp. cbn in *. by eapply safe_stable_T.
    + eapply Forall_impl; [exact HK|]. intros p Hp. cbn in *. by eapply tok_stable.
Qed.

Lemma pool_steps c c' : psteps start req env c c' -> pool_ok c -> pool_ok c' /\ R (p_st c) (p_st c').
Proof using All.
  induction 1 as [c|c1 c2 c3 _ IH H2]; intros H; [split; [done|reflexivity]|].
  destruct (IH H) as [H3 H4]. destruct (pool_step _ _ H2 H3). split; [done|by transitivity (p_st c2)].
Qed.
End safe.

Lemma psteps_app {St Task} (start : Task -> prog St Task unit) req env c1 c2 c3 :
  psteps start req env c1 c2 -> psteps start req env c2 c3 -> psteps start req env c1 c3.
Proof. intros H1 H2. induction H2; [done|]. by econstructor; [apply IHpsteps|]. Qed.

(* ---------------------------------------------------------------- *)
(** * A sequential run is one of the interleavings *)

Section seq.
Context {St Task : Type}.
Context (start : Task -> prog St Task unit) (req : prog St Task unit -> Prop) (env : St -> St -> Prop).

Lemma run_psteps (p : prog St Task unit) s l ts cr :
  let '(s', new, r) := run p s in
  psteps start req env (mkpool s (l ++ [p]) ts cr)
    (mkpool s' l (ts ++ new) (match r with Done _ => cr | Crashed w => w :: cr end)).
Proof.
  revert s ts. induction p as [a|w|X f k IH|t k IH]; intros s ts; cbn [run].
  - rewrite app_nil_r. econstructor; [constructor|].
    pose proof (step_ret start req env s l a [] ts cr) as H. by rewrite app_nil_r in H.
  - rewrite app_nil_r. econstructor; [constructor|].
    pose proof (step_crash start req env s l w [] ts cr) as H. by rewrite app_nil_r in H.
  - destruct (f s) as [s' x] eqn:E. specialize (IH x s' ts). destruct (run (k x) s') as [[s2 new] r].
    eapply psteps_app; [|exact IH]. econstructor; [constructor|]. by constructor.
  - specialize (IH s (ts ++ [t])). destruct (run k s) as [[s2 new] r].
    rewrite <- app_assoc in IH. eapply psteps_app; [|exact IH]. econstructor; [constructor|]. constructor.
Qed.
End seq.

(* ---------------------------------------------------------------- *)
(** * An executable scheduler *)

Section sched.
Context {St Task Req : Type}.
Context (start : Task -> prog St Task unit) (req : prog St Task unit -> Prop) (env : St -> St -> Prop).
Context (rq : Req -> prog St Task unit) (rq_ok : forall r, req (rq r)).

(** Let thread [i] make a step, start the task [i], or start a request. *)
Inductive choice := Go (i : nat) | Start (i : nat) | Spawn (r : Req).

Definition sstep (c : pool St Task) (x : choice) : option (pool St Task) :=
  match x with
  | Go i =>
      match nth_error (p_threads c) i with
      | None => None
      | Some p =>
          let l1 := firstn i (p_threads c) in
          let l2 := skipn (S i) (p_threads c) in
          Some match p with
               | Act f k => let '(s', y) := f (p_st c) in mkpool s' (l1 ++ k y :: l2) (p_tasks c) (p_crashes c)
               | Fork t k => mkpool (p_st c) (l1 ++ k :: l2) (p_tasks c ++ [t]) (p_crashes c)
               | Ret _ => mkpool (p_st c) (l1 ++ l2) (p_tasks c) (p_crashes c)
               | Crash w => mkpool (p_st c) (l1 ++ l2) (p_tasks c) (w :: p_crashes c)
               end
      end
  | Start i =>
      match nth_error (p_tasks c) i with
      | None => None
      | Some t => Some (mkpool (p_st c) (p_threads c ++ [start t])
                               (firstn i (p_tasks c) ++ skipn (S i) (p_tasks c)) (p_crashes c))
      end
  | Spawn r => Some (mkpool (p_st c) (p_threads c ++ [rq r]) (p_tasks c) (p_crashes c))
  end.

Fixpoint sched (c : pool St Task) (l : list choice) : option (pool St Task) :=
  match l with
  | [] => Some c
  | x :: r => match sstep c x with Some c' => sched c' r | None => None end
  end.

Lemma nth_split {X} (l : list X) i x : nth_error l i = Some x -> l = (firstn i l ++ x :: skipn (S i) l)%list.
Proof.
  revert i. induction l as [|y l IH]; intros [|i] H; cbn in *; try done; [by injection H as ->|].
  f_equal. by apply IH.
Qed.

Lemma sstep_sound c x c' : sstep c x = Some c' -> pstep start req env c c'.
Proof using rq_ok.
  destruct c as [s l ts cr], x as [i|i|r]; cbn; intros H.
  - destruct (nth_error l i) as [p|] eqn:E; [|done]. injection H as <-. apply nth_split in E.
    destruct p as [a|w|X f k|t k].
    + rewrite E at 1. constructor.
    + rewrite E at 1. constructor.
    + destruct (f s) as [s' y] eqn:Ef. rewrite E at 1. by constructor.
    + rewrite E at 1. constructor.
  - destruct (nth_error ts i) as [t|] eqn:E; [|done]. injection H as <-. apply nth_split in E.
    rewrite E at 1. constructor.
  - injection H as <-. by constructor.
Qed.

Lemma sched_sound l c c' : sched c l = Some c' -> psteps start req env c c'.
Proof using rq_ok.
  revert c. induction l as [|x l IH]; intros c H; cbn in H; [injection H as <-; constructor|].
  destruct (sstep c x) as [c1|] eqn:E; [|done]. eapply psteps_app; [|by apply IH].
  econstructor; [constructor|]. by eapply sstep_sound.
Qed.
End sched.
Arguments Go {Req}. Arguments Start {Req}. Arguments Spawn {Req}.
