(** The convergence times a gossiper notes. *)
From Verif Require Import Bytes Hex Json Types Crypto Verify Prog Gossiper SpecVerify SpecGossiper ProgFacts GstFacts CodecFacts CryptoFacts VerifyFacts GWalk GossiperInv GossiperSeq GossiperWalks GossiperEvidence GossiperStep GossiperConflict GossiperFrag GossiperMore SpecStops.
From Coq Require Import Lia.
Open Scope string_scope.

Section converge.
Context {P : prims} (cfg : gconf P).
Notation cc := (gc_crypto cfg).
Notation T := (cc_threshold cc).

Definition CR (s s' : gst) : Prop := k_second s' = k_second s /\
  (t_conv s' = t_conv s \/ t_conv s' = k_second s) /\ (t_conv_init s' = t_conv_init s \/ t_conv_init s' = k_second s).
Local Instance CR_pre : PreOrder CR.
Proof. split; unfold CR; [intros s; auto|]. intros a b c (-> & H1 & H2) (-> & H3 & H4). intuition congruence. Qed.
Local Ltac ck := unfold keeps, CR, inserted; cbn zeta; intros; split_and?; try done; autorewrite with gst; auto.

Lemma walk_conv : walk_ok cfg (λ _, True) CR (λ _ _, True) (λ _, True) (λ _ _, True) (λ _ _, True).
Proof.
  split; try by ck.
  - apply CR_pre.
  - intros s g f _ _ _. unfold keeps, CR, read_and_store. split; [done|]. cbn [fst]. autorewrite with gst.
    destruct (Nat.ltb _ _); autorewrite with gst; auto.
Qed.

Lemma exec_conv p y ts : safe (λ _, True) CR (λ _ _, True) (λ _, True) (λ _ _, True) p (s_st y) ->
  CR (s_st y) (s_st (exec p y ts)).
Proof.
  intros Hs. unfold exec.
  pose proof (safe_run (λ _, True) CR (λ _ _, True) (λ _, True) ltac:(done) (λ _ _, True) p (s_st y) ltac:(done) Hs) as HR.
  destruct (run p (s_st y)) as [[s' new] r]. cbn. destruct r; apply HR.
Qed.

Lemma step_conv y e (s := s_st y) (s' := s_st (step cfg y e)) :
  (t_conv s' = t_conv s \/ t_conv s' = k_second s) /\ (t_conv_init s' = t_conv_init s \/ t_conv_init s' = k_second s).
Proof.
  subst s s'. assert ((exists p sec st, e = Tick p sec st) \/ ~ (exists p sec st, e = Tick p sec st)) as [(p & sec & st & ->)|He].
  { destruct e; try (right; by intros (? & ? & ? & ?)). left. eauto. }
  { cbn. autorewrite with gst. auto. }
  enough (CR (s_st y) (s_st (step cfg y e))) as (_ & H1 & H2) by done.
  destruct e as [n g|n|n|i|p sec st|]; cbn [step].
  - apply exec_conv. by eapply s_object; [exact walk_conv|..].
  - apply exec_conv. eapply s_notification; [exact walk_conv|]. ck.
  - apply exec_conv. eapply s_request; [exact walk_conv|]. ck.
  - destruct (nth_error _ i) as [t|]; [|reflexivity]. apply exec_conv. by eapply s_start; [exact walk_conv|].
  - destruct He. eauto.
  - apply exec_conv. eapply s_periodic; [exact walk_conv|..]; try (by ck).
Qed.

Lemma init_complete s : is_init_convergent cfg s = true <-> all_statements cfg s.
Proof. unfold is_init_convergent, all_statements. rewrite Z.eqb_eq. change @size with (@size). unfold objects. change (length (map_to_list ?m)) with (size m). rewrite (Nat.add_comm (size (t_rev_init s))). done. Qed.

Lemma full_complete s : is_convergent cfg s = true <-> all_finals cfg s.
Proof. unfold is_convergent, all_finals. rewrite Z.eqb_eq. unfold objects. change (length (map_to_list ?m)) with (size m). rewrite (Nat.add_comm (size (t_rev_full s))). done. Qed.

(** A new statement. *)
Lemma statement_time s g : reachable cfg s -> 0 < T -> statement g -> verify cc g = Accept ->
  statement_table s g !! get_id g = None -> g_signer g <> "" -> g_p0 g ∉ t_black s ->
  exists s' ts, run (handle cfg g) s = (s', ts, Done tt) /\
    (all_statements cfg s' -> t_conv_init s' = k_second s) /\ (~ all_statements cfg s' -> t_conv_init s' = t_conv_init s) /\ t_conv s' = t_conv s.
Proof.
  intros Hr HT Hs Hv Hno Hsg Hb. destruct (statement_fam g Hs) as (f & Hf & Hk). rewrite (stmt_table_at _ _ f) in Hno by done.
  unfold handle. rewrite (handle_stmt cfg 2 f) by (auto; by apply reachable_inv).
  assert (is_duplicate s g = false) as -> by (unfold is_duplicate; by rewrite Hk, Hno).
  unfold in_blacklist. rewrite bool_decide_eq_false_2 by done.
  assert (is_malicious s g = false) as ->.
  { unfold is_malicious, get_object, obj_at. rewrite Hk. destruct f; [| |done]; rewrite Hno; rewrite bool_decide_eq_false_2 by done; done. }
  rewrite Hv. eexists _, _. split; [reflexivity|]. rewrite <- !init_complete. unfold published, conv_i.
  set (s1 := inserted s (OInit f) g).
  assert (k_second s1 = k_second s) as Ek by (unfold s1, inserted; by autorewrite with gst).
  assert (t_conv_init s1 = t_conv_init s) as Ei by (unfold s1, inserted; by autorewrite with gst).
  assert (t_conv s1 = t_conv s) as Ec by (unfold s1, inserted; by autorewrite with gst).
  assert (forall x tr, is_init_convergent cfg (add_trace x tr) = is_init_convergent cfg x) as Ht by (intros [] tr; done).
  rewrite !Ht. destruct (is_init_convergent cfg s1) eqn:E; autorewrite with gst.
  - split_and!; [done| |done]. intros []. unfold is_init_convergent in *. by destruct s1.
  - rewrite E. by split_and!.
Qed.

(** A new aggregate. *)
Lemma final_time s g f : reachable cfg s -> g_type g = full_type f -> verify cc g = Accept ->
  get_tbl s (OFull f) !! get_id g = None -> g_p0 g ∉ t_black s ->
  exists s' ts, run (handle cfg g) s = (s', ts, Done tt) /\
    (all_finals cfg s' -> t_conv s' = k_second s) /\ (~ all_finals cfg s' -> t_conv s' = t_conv s) /\ t_conv_init s' = t_conv_init s.
Proof.
  intros Hr Hty Hv Hno Hb. assert (obj_kind g = KObj (OFull f)) as Hk by (unfold obj_kind; rewrite Hty; by destruct f).
  unfold handle. rewrite (handle_aggregate cfg 2 f) by done.
  assert (is_duplicate s g = false) as -> by (unfold is_duplicate; by rewrite Hk, Hno).
  unfold in_blacklist. rewrite bool_decide_eq_false_2 by done. rewrite Hno. eexists _, _. split; [reflexivity|].
  rewrite <- !full_complete. unfold conv_f. set (s1 := add_trace _ _).
  assert (k_second s1 = k_second s /\ t_conv s1 = t_conv s /\ t_conv_init s1 = t_conv_init s) as (Ek & Ec & Ei).
  { unfold s1, stored_full. rewrite Hv. destruct (decide _); unfold black_add, inserted; [destruct (in_blacklist _ _)|]; by autorewrite with gst. }
  destruct (is_convergent cfg s1) eqn:E; autorewrite with gst.
  - split_and!; [done| |done]. intros []. unfold is_convergent in *. by destruct s1.
  - rewrite E. by split_and!.
Qed.
End converge.
