(** Histories of a CA whose tasks interleave. *)
From Verif Require Import Bytes Hex Base64 Json Types Crypto Verify Merkle Cert CertPool CTngExt Clock Bitset Revocation CA FineCA
  SpecCodec SpecCert SpecCA SpecFineCA BitsetFacts RevocationFacts CAFacts CARidFacts CAPoiFacts FineCAFacts FineCAMore RefuteCA Toy.
From Verif Require Logger.
Open Scope string_scope.

(** Two tasks without certificates end in minute 7, the first of them revokes [ps]; monitors ask in minute 8 after each of them. *)
Definition ask8 : list cfev := [FAsk; FRun 2 8 []; FRun 2 8 []].
Definition rev_twice (ps : list N) : list cfev :=
  ([FTick []; FTick []] ++ repeat (FRun 0 7 ps) 10 ++ ask8 ++ repeat (FRun 1 7 []) 10 ++ ask8)%list.
(** The same, and nobody asks. *)
Definition rev_lost (ps : list N) : list cfev :=
  ([FTick []; FTick []] ++ repeat (FRun 0 7 ps) 10 ++ repeat (FRun 1 7 []) 10 ++ repeat (FRun 0 7 []) 3 ++ repeat (FRun 0 7 []) 3)%list.

Section refute.
Context {P : prims} (x : x509lib) (z : gzip) (c : caconf P) (cc : cconf P) (Hz : gzip_ok z).
Notation run := (cfrun x z c cc).
Notation gen v := (generate_revocation z (cac_key c) (cac_self c) (cac_signer c) v 0 "8" false).

Lemma twice_runs k d1 d2 ps : snd (run (fc_init x c 0 k d1 d2) (rev_twice ps)) =
  [CReply 8 (Answer (gen (crv_mass_revoke crv_init ps))); CReply 8 (Answer (gen (crv_next (crv_mass_revoke crv_init ps))))].
Proof. reflexivity. Qed.

Lemma mass_delta ps : (forall i, i ∈ ps -> index_ok i) ->
  crv_delta (crv_mass_revoke crv_init ps) = fold_left bs_set ps (bs_new crv_size) /\ cur_ok (fold_left bs_set ps (bs_new crv_size)).
Proof.
  intros Hi. assert (K : cur_ok (fold_left bs_set ps (bs_new crv_size))) by (apply cur_ok_sets; [apply cur_ok_new|done]). split; [|done].
  destruct (mass_cur ps crv_init) as [E1 E2]. unfold crv_delta. rewrite E2, E1. cbn [crv_init v_pre v_cur]. apply bs_symdiff_new, K.
Qed.

Lemma two_revocations k d1 d2 ps i : i ∈ ps -> (forall i, i ∈ ps -> index_ok i) -> exists g1 g2,
  snd (run (fc_init x c 0 k d1 d2) (rev_twice ps)) = [CReply 8 (Answer g1); CReply 8 (Answer g2)] /\ evidence g1 g2.
Proof using Hz.
  intros Hi Hps. eexists _, _. split; [apply twice_runs|]. split_and!; [done..|]. intros E.
  destruct (mass_delta ps Hps) as [Ed Ko].
  assert (D1 := generated_decodes z (cac_key c) (cac_self c) (cac_signer c) (crv_mass_revoke crv_init ps) 0 "8" false Hz).
  assert (D2 := generated_decodes z (cac_key c) (cac_self c) (cac_signer c) (crv_next (crv_mass_revoke crv_init ps)) 0 "8" false Hz).
  cbn [revocation_delta] in D1, D2. rewrite Ed in D1. specialize (D1 (cur_ok_ok _ Ko)). specialize (D2 (cur_ok_ok _ cur_ok_new)).
  unfold srh_and_dcrv in D1, D2. rewrite E, D2 in D1. injection D1 as _ F. change (crv_delta (crv_next _)) with (bs_new crv_size) in F.
  assert (T : bs_test (fold_left bs_set ps (bs_new crv_size)) i = true) by (apply sets_test; [apply bs_trim_new|by right]).
  rewrite <- F in T. apply revokes_test in T as [_ T]. cbn in T. done.
Qed.

Lemma lost_state k d1 d2 ps : let y := fst (run (fc_init x c 0 k d1 d2) (rev_lost ps)) in
  fc_go y = [] /\ a_rev (fc_st y) = <["8" := gen (crv_next (crv_mass_revoke crv_init ps))]> (<["8" := gen (crv_mass_revoke crv_init ps)]> ∅) /\
  a_crv (fc_st y) = crv_next (crv_next (crv_mass_revoke crv_init ps)) /\ snd (run (fc_init x c 0 k d1 d2) (rev_lost ps)) = [].
Proof. split_and!; reflexivity. Qed.

Lemma revocations_lost k d1 d2 ps i : i ∈ ps -> (forall i, i ∈ ps -> index_ok i) ->
  revokes (v_cur (a_crv (fc_st (fst (run (fc_init x c 0 k d1 d2) (rev_lost ps)))))) i /\
  forall l m g, CReply m (Answer g) ∈ snd (run (fc_init x c 0 k d1 d2) (rev_lost ps ++ l)) -> g = zero_obj \/ ~ revokes (snd (srh_and_dcrv z g)) i.
Proof using Hz.
  intros Hi Hps. destruct (lost_state k d1 d2 ps) as (Hg & Hr & Hv & Ho). split.
  { rewrite Hv. cbn [crv_next v_cur]. destruct (mass_cur ps crv_init) as [-> _]. apply revokes_test, sets_test; [apply bs_trim_new|by right]. }
  intros l m g H. rewrite run_app in H.
  assert (Ty : a_type (fc_st (fst (run (fc_init x c 0 k d1 d2) (rev_lost ps)))) = 0%Z) by (rewrite run_type; done).
  destruct (run (fc_init x c 0 k d1 d2) (rev_lost ps)) as [y o]. cbn [fst snd] in *. subst o.
  assert (O : objs (empty_delta z) (λ _ _, True) y).
  { split_and!; [|done|rewrite Hg; intros a Ha; by apply elem_of_nil in Ha]. intros p g' E. rewrite Hr in E. rewrite insert_insert in E.
    apply lookup_insert_Some in E as [(<- & <-)|(_ & E)]; [|by rewrite lookup_empty in E].
    unfold empty_delta. rewrite generated_decodes; [done|done|]. apply cur_ok_ok, cur_ok_new. }
  assert (V : v_pre (a_crv (fc_st y)) = None) by (by rewrite Hv).
  assert (R : exists l1 n, Answer g = snd (request_rev (set_a_count (fc_st (fst (run y l1))) n) m)).
  { destruct (run y l) as [y2 o2] eqn:E. cbn [snd app] in H. assert (Eo : o2 = snd (run y l)) by (by rewrite E). subst o2. clear E y2. revert H.
    induction l as [|e l IH] using rev_ind; [intros H; by apply elem_of_nil in H|]. rewrite run_snoc. cbn [snd]. intros [H|H]%elem_of_app; [by apply IH|].
    apply step_reply in H as [n E]. by exists l, n. }
  destruct R as (l1 & n & E). symmetry in E. apply answer_stored in E. destruct (later_run x z c cc Hz l1 y V O) as [_ (O1 & _)].
  cbn [set_a_count a_rev a_fake a_type] in E. destruct E as [E|[E|[T _]]]; [by left|right|].
  - specialize (O1 _ _ E). unfold empty_delta in O1. rewrite O1. intros [_ T]. cbn in T. done.
  - exfalso. apply T. by rewrite run_type.
Qed.
End refute.

(** An ordinary history: two certificates, a tree head, a proof and a request in the middle of the task. *)
Definition quiet_ca : list cfev :=
  ([FTick [toy_draw 7 "pub1"; toy_draw 8 "pub2"]] ++ repeat (FRun 0 7 []) 5 ++ [FHead (toy_sth "localhost:9100" "k1"); FRun 0 7 []; FAsk; FRun 1 7 []] ++ repeat (FRun 0 7 []) 7 ++
   [FProof (toy_poi "localhost:9100"); FRun 2 7 []; FRun 0 7 []; FRun 2 7 []; FRun 2 7 []; FRun 1 7 []])%list.
Notation toy_fine := (cfrun toy_x toy_z toy_ca (toy_cc "localhost:9000" 0)).
Definition toy_fc0 : fca := fc_init toy_x toy_ca 0 0 (toy_draw 1 "a") (toy_draw 2 "b").
Lemma quiet_ca_one : one_issuer toy_x toy_z toy_ca (toy_cc "localhost:9000" 0) toy_fc0 quiet_ca.
Proof.
  intros l1 ds l2 a E H. destruct l1 as [|e l1]; [by apply elem_of_nil in H|]. exfalso. unfold quiet_ca in E. cbn in E. injection E as _ E.
  assert (K : FTick ds ∈ (l1 ++ FTick ds :: l2)%list) by (apply elem_of_app; right; by left). rewrite <- E in K. set_solver.
Qed.
Lemma quiet_ca_positions : positions_ok quiet_ca.
Proof.
  split; [intros i H|intros n m ps i H Hi]; unfold quiet_ca in H; cbn [app repeat] in H; repeat (apply elem_of_cons in H as [H|H]; [try discriminate H|]); try (by apply elem_of_nil in H);
    injection H as _ _ ->; by apply elem_of_nil in Hi.
Qed.
Lemma quiet_ca_other : forall a, a ∈ fc_go (fst (toy_fine toy_fc0 quiet_ca)) -> other_minute (unpadded 8) a.
Proof. intros a H. vm_compute in H. repeat (apply elem_of_cons in H as [->|H]; [done|]). by apply elem_of_nil in H. Qed.
Lemma answers_ex : gzip_ok toy_z /\ positions_ok quiet_ca /\ cc_sign_scheme (toy_cc "localhost:9000" 0) = "rsa" /\
  cc_rsa_pubs (toy_cc "localhost:9000" 0) !! cac_self toy_ca = Some (cac_key toy_ca) /\
  (exists g, CReply 8 (Answer g) ∈ snd (toy_fine toy_fc0 (rev_twice [2%N])) /\ g <> zero_obj).
Proof.
  split_and!; [exact toy_gzip|exact quiet_ca_positions|done|done|]. unfold toy_fc0. rewrite twice_runs. eexists. split; [by left|]. intros E. apply (f_equal g_type) in E. done.
Qed.
