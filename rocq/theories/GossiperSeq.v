(** Sequential runs of the gossiper. *)
From Verif Require Import Bytes Hex Json Types Crypto Verify Prog Gossiper SpecVerify SpecGossiper ProgFacts GstFacts CodecFacts CryptoFacts VerifyFacts GWalk GossiperInv.
From Coq Require Import Lia.
Open Scope string_scope.

Section seq.
Context {P : prims} (cfg : gconf P).
Notation cc := (gc_crypto cfg).
Notation T := (cc_threshold cc).

Lemma exec_psteps p y ts : grequest cfg p -> 
  gpsteps cfg (mkpool (s_st y) [] ts (s_crashes y))
    (mkpool (s_st (exec p y ts)) [] (s_tasks (exec p y ts)) (s_crashes (exec p y ts))).
Proof.
  intros Hp. unfold exec. pose proof (run_psteps (start_task cfg) (grequest cfg) clock_step p (s_st y) [] ts (s_crashes y)) as H.
  destruct (run p (s_st y)) as [[s' new] r]. cbn [s_st s_tasks s_crashes]. 
  eapply psteps_app; [|exact H]. econstructor; [constructor|]. by constructor.
Qed.

Definition pool_of (y : gsys) : gpool := mkpool (s_st y) [] (s_tasks y) (s_crashes y).

Lemma step_psteps y e : gpsteps cfg (pool_of y) (pool_of (step cfg y e)).
Proof.
  destruct e as [n g|n|n|i|p sec st|]; cbn [step].
  - apply exec_psteps. constructor.
  - apply exec_psteps. constructor.
  - apply exec_psteps. constructor.
  - destruct (nth_error (s_tasks y) i) as [t|] eqn:E; [|constructor].
    pose proof (run_psteps (start_task cfg) (grequest cfg) clock_step (start_task cfg t) (s_st y) []
      (take i (s_tasks y) ++ drop (S i) (s_tasks y)) (s_crashes y)) as H.
    unfold exec. destruct (run _ (s_st y)) as [[s' new] r].
    eapply psteps_app; [|exact H]. econstructor; [constructor|]. unfold pool_of.
    apply nth_split in E. rewrite E at 1. exact (step_start _ _ _ (s_st y) [] _ t _ _).
  - econstructor; [constructor|]. apply step_env. unfold clock_step. cbn. eauto.
  - apply exec_psteps. constructor.
Qed.

(** Every sequential history is one of the interleavings. *)
Lemma steps_psteps l y : gpsteps cfg (pool_of y) (pool_of (steps cfg y l)).
Proof.
  revert y. induction l as [|e l IH]; intros y; [constructor|]. cbn. eapply psteps_app; [apply step_psteps|apply IH].
Qed.

Lemma steps_reachable a b c l : gpsteps cfg (init_pool a b c) (pool_of (steps cfg (init_gsys a b c) l)).
Proof. apply (steps_psteps l (init_gsys a b c)). Qed.

Lemma steps_GI a b c l : GI cfg (s_st (steps cfg (init_gsys a b c) l)).
Proof. apply (reachable_GI cfg a b c _ (steps_reachable a b c l)). Qed.

Lemma steps_app l1 l2 y : steps cfg y (l1 ++ l2) = steps cfg (steps cfg y l1) l2.
Proof. apply fold_left_app. Qed.

(* ---------------------------------------------------------------- *)
(** * The recursion depth *)

Lemma run_bind_ext {A B} (p : gprog A) (q1 q2 : A -> gprog B) s :
  (forall a s', run (q1 a) s' = run (q2 a) s') -> run (pbind p q1) s = run (pbind p q2) s.
Proof. intros H. rewrite !run_bind. destruct (run p s) as [[s1 t1] [a|w]]; [|done]. by rewrite H. Qed.

Lemma run_bind_ext1 {A B} (p1 p2 : gprog A) (q : A -> gprog B) s :
  run p1 s = run p2 s -> run (pbind p1 q) s = run (pbind p2 q) s.
Proof. intros H. rewrite !run_bind. by rewrite H. Qed.

Lemma handle_body_ext rec1 rec2 n g s : rank g <= S n ->
  (forall g s, rank g <= n -> run (rec1 g) s = run (rec2 g) s) ->
  run (handle_body cfg rec1 g) s = run (handle_body cfg rec2 g) s.
Proof.
  intros Hr H. unfold handle_body. apply run_bind_ext. intros [|] s1; [done|].
  apply run_bind_ext. intros [|] s2; [done|]. unfold rank in Hr.
  assert (forall f, f <> Acc -> obj_kind g = KObj (OInit f) -> run (handle_init cfg rec1 f g) s2 = run (handle_init cfg rec2 f g) s2) as Hi.
  { intros f Hf Ek. rewrite Ek in Hr. unfold handle_init. apply run_bind_ext. intros n1 s3. destruct (Nat.ltb _ _); [done|].
    apply run_bind_ext. intros n2 s4. destruct (Nat.leb _ _); [done|].
    apply run_bind_ext. intros [|] s5; [|done]. apply run_bind_ext. intros o1 s6. apply run_bind_ext. intros now s7.
    apply H. unfold rank. rewrite con_kind. lia. }
  destruct (obj_kind g) as [[[]| |]| |] eqn:Ek; try done; try by apply Hi.
  - unfold handle_acc_init. apply run_bind_ext. intros n1 s3. destruct (Nat.ltb _ _); [done|].
    apply run_bind_ext. intros n2 s4. destruct (Nat.leb _ _); [done|].
    apply run_bind_ext. intros [|] s5; [|done]. cbn [negb]. apply run_bind_ext. intros [|] s6; [done|].
    unfold generate_frag. destruct (cc_thr_sign cc (signed_msg g)) as [sf|]; [|done].
    cbn. apply H. unfold rank. rewrite (frag_of_kind cfg g _ Acc Ek). lia.
  - unfold handle_frag. apply run_bind_ext. intros n1 s3. destruct (Nat.ltb _ _); [done|].
    apply run_bind_ext. intros before s4. apply run_bind_ext1. destruct (Nat.eqb _ _); [|done].
    apply run_bind_ext. intros l s5. unfold generate_full. destruct (cc_thr_aggregate _ _) as [ts|]; [|done].
    destruct l as [|g0 l]; [done|]. cbn. apply H. unfold rank, obj_kind. cbn.
    rewrite (target_kind g f Ek). lia.
Qed.

Lemma handle_n_fuel n m g s : rank g <= n -> rank g <= m -> run (handle_n cfg n g) s = run (handle_n cfg m g) s.
Proof.
  revert m g s. induction n as [|n IH]; intros [|m] g s H1 H2;
    try (exfalso; unfold rank in *; destruct (obj_kind g) as [[]| |]; lia).
  cbn [handle_n]. destruct (Nat.le_gt_cases n m) as [Hnm|Hnm].
  - eapply (handle_body_ext _ _ (min n m)).
    + lia.
    + intros g' s' Hr. apply IH; lia.
  - eapply (handle_body_ext _ _ (min n m)).
    + lia.
    + intros g' s' Hr. apply IH; lia.
Qed.

Lemma handle_fuel n g s : run (handle_n cfg (3 + n) g) s = run (handle cfg g) s.
Proof. apply handle_n_fuel; pose proof (rank_le g); lia. Qed.

End seq.
