(** Facts about CA.v. *)
From Verif Require Import Bytes Hex Base64 Json Types Crypto Verify Cert CertPool CTngExt Clock Bitset Revocation CA
  SpecCodec SpecVerify SpecCert SpecCA CodecFacts CryptoFacts VerifyFacts CertFacts ExtFacts BitsetFacts RevocationFacts.
Open Scope string_scope.

(* ---------------------------------------------------------------- *)
(** * Revocation vectors *)

Lemma mass_cur l : forall v, v_cur (crv_mass_revoke v l) = fold_left bs_set l (v_cur v) /\ v_pre (crv_mass_revoke v l) = v_pre v.
Proof. induction l as [|i l IH]; intros v; [done|]. cbn. destruct (IH (crv_revoke v i)) as [E1 E2]. split; [exact E1|exact E2]. Qed.

Lemma revokes_test b i : revokes b i <-> bs_test b i = true.
Proof. symmetry. apply bs_test_true. Qed.
Lemma sets_test l : forall b i, bs_trim b -> bs_test (fold_left bs_set l b) i = true <-> (bs_test b i = true \/ i ∈ l).
Proof.
  induction l as [|j l IH]; intros b i Hb; cbn [fold_left].
  - split; [by left|]. intros [?|?%elem_of_nil]; done.
  - rewrite IH by by apply bs_trim_set. rewrite bs_test_set by done. rewrite orb_true_iff, N.eqb_eq, elem_of_cons. naive_solver.
Qed.

Lemma sets_trim l : forall b, bs_trim b -> bs_trim (fold_left bs_set l b).
Proof. induction l as [|j l IH]; intros b Hb; cbn [fold_left]; [done|]. apply IH. by apply bs_trim_set. Qed.

Lemma sets_len l : forall b, (bs_len b <= bs_len (fold_left bs_set l b))%N.
Proof. induction l as [|j l IH]; intros b; cbn [fold_left]; [lia|]. etransitivity; [|apply IH]. cbn. lia. Qed.

Lemma sets_bound l : forall b, (bs_len b < word_size)%N -> (forall i, i ∈ l -> index_ok i) -> (bs_len (fold_left bs_set l b) < word_size)%N.
Proof.
  induction l as [|j l IH]; intros b Hb Hi; cbn [fold_left]; [done|]. apply IH.
  - cbn. pose proof (Hi j (elem_of_list_here _ _)) as H. unfold index_ok, word_size in *. lia.
  - intros i Hin. apply Hi. by right.
Qed.

(** The vector is always within its bounds. *)
Definition cur_ok (b : bitset) : Prop := bs_trim b /\ (crv_size <= bs_len b)%N /\ (bs_len b < word_size)%N.

Lemma cur_ok_ok b : cur_ok b -> bs_ok b.
Proof. intros (H1 & _ & H3). by apply bs_trim_ok. Qed.
Lemma cur_ok_new : cur_ok (bs_new crv_size).
Proof. split_and!; [apply bs_trim_new|done|done]. Qed.
Lemma cur_ok_sets l b : cur_ok b -> (forall i, i ∈ l -> index_ok i) -> cur_ok (fold_left bs_set l b).
Proof. intros (H1 & H2 & H3) Hi. split_and!; [by apply sets_trim|etransitivity; [exact H2|apply sets_len]|by apply sets_bound]. Qed.

(** Indexes revoked by single calls. *)
Definition singles (l : list caevent) : list N := omap (λ e, match e with CRevoke i => Some i | _ => None end) l.

Lemma singles_in l i : i ∈ singles l <-> CRevoke i ∈ l.
Proof.
  unfold singles. rewrite elem_of_list_omap. split.
  - intros (e & He & Hs). destruct e; try done. injection Hs as ->. done.
  - intros H. by exists (CRevoke i).
Qed.

Section ca.
Context {P : prims} (x : x509lib) (z : gzip) (c : caconf P) (cc : cconf P).
Implicit Types (s : cast) (e : caevent) (l : list caevent).
Notation step := (ca_step x z c cc).
Notation run := (ca_run x z c cc).

Lemma run_app s l1 l2 : run s (l1 ++ l2) = run (run s l1) l2.
Proof. unfold ca_run. apply fold_left_app. Qed.

Lemma published_app s l1 l2 : all_published x z c cc s (l1 ++ l2) = (all_published x z c cc s l1 ++ all_published x z c cc (run s l1) l2)%list.
Proof.
  revert s. induction l1 as [|e l1 IH]; intros s; [done|]. cbn [all_published app]. rewrite IH. rewrite <- app_assoc. done.
Qed.

Lemma issued_app s l1 l2 : all_issued x z c cc s (l1 ++ l2) = (all_issued x z c cc s l1 ++ all_issued x z c cc (run s l1) l2)%list.
Proof.
  revert s. induction l1 as [|e l1 IH]; intros s; [done|]. cbn [all_issued app]. rewrite IH. rewrite <- app_assoc. done.
Qed.

Lemma poi_frame s p : a_crv (receive_poi s p) = a_crv s /\ a_fresh (receive_poi s p) = a_fresh s /\ a_counter (receive_poi s p) = a_counter s /\
  a_root (receive_poi s p) = a_root s /\ a_online (receive_poi s p) = a_online s /\ a_rev (receive_poi s p) = a_rev s /\
  a_fake (receive_poi s p) = a_fake s /\ a_count (receive_poi s p) = a_count s /\ a_type (receive_poi s p) = a_type s /\
  a_interval (receive_poi s p) = a_interval s.
Proof. unfold receive_poi. destruct (get_by_ski _ _); done. Qed.

Lemma sth_frame s g : let s' := fst (receive_sth cc s g) in a_crv s' = a_crv s /\ a_fresh s' = a_fresh s /\ a_counter s' = a_counter s /\
  a_root s' = a_root s /\ a_online s' = a_online s /\ a_rev s' = a_rev s /\ a_fake s' = a_fake s /\ a_count s' = a_count s /\
  a_type s' = a_type s /\ a_interval s' = a_interval s /\ a_pool s' = a_pool s.
Proof. unfold receive_sth. destruct (verify cc g); done. Qed.

Lemma ask_frame s m : let s' := fst (request_rev s m) in a_crv s' = a_crv s /\ a_fresh s' = a_fresh s /\ a_counter s' = a_counter s /\
  a_root s' = a_root s /\ a_online s' = a_online s /\ a_rev s' = a_rev s /\ a_fake s' = a_fake s /\ a_pool s' = a_pool s /\
  a_type s' = a_type s /\ a_interval s' = a_interval s.
Proof. unfold request_rev. cbn. destruct (Z.eqb (a_type s) 0); done. Qed.

(** Effect of one event on the vector. *)
Lemma step_crv s e : a_crv (step s e) =
  match e with
  | CRevoke i => crv_revoke (a_crv s) i
  | CPeriod p m => crv_next (if a_fresh s then crv_mass_revoke (a_crv s) p else a_crv s)
  | _ => a_crv s
  end.
Proof.
  destruct e; cbn [ca_step]; try done.
  - apply sth_frame.
  - apply poi_frame.
  - apply ask_frame.
Qed.

Lemma step_fresh s e : a_fresh (step s e) = match e with CPeriod _ _ => false | _ => a_fresh s end.
Proof.
  destruct e; cbn [ca_step]; try done.
  - apply sth_frame.
  - apply poi_frame.
  - apply ask_frame.
Qed.

Lemma no_period_cons e l : no_period (e :: l) -> (forall p m, e <> CPeriod p m) /\ no_period l.
Proof. intros H. split; [intros p m ->; eapply H; by left|]. intros p m Hin. eapply H; by right. Qed.

(** Before the first period end. *)
Lemma run_before l : forall s, no_period l -> 
  v_cur (a_crv (run s l)) = fold_left bs_set (singles l) (v_cur (a_crv s)) /\
  v_pre (a_crv (run s l)) = v_pre (a_crv s) /\ a_fresh (run s l) = a_fresh s /\ all_published x z c cc s l = [].
Proof.
  induction l as [|e l IH]; intros s Hn; [done|]. apply no_period_cons in Hn as [He Hn].
  destruct (IH (step s e) Hn) as (H1 & H2 & H3 & H4). change (run s (e :: l)) with (run (step s e) l).
  cbn [all_published]. rewrite H1, H2, H3, H4. rewrite step_crv, step_fresh.
  destruct e; try done. exfalso. eapply He; done.
Qed.

(** After it. *)
Lemma run_after l : forall s, v_pre (a_crv s) = None -> a_fresh s = false ->
  v_cur (a_crv (run s l)) = fold_left bs_set (singles l) (v_cur (a_crv s)) /\
  v_pre (a_crv (run s l)) = None /\ a_fresh (run s l) = false.
Proof.
  induction l as [|e l IH]; intros s Hp Hf; [done|].
  destruct (IH (step s e)) as (H1 & H2 & H3).
  - rewrite step_crv. destruct e; try done.
  - rewrite step_fresh. by destruct e.
  - change (run s (e :: l)) with (run (step s e) l). rewrite H1, H2, H3, step_crv. split_and!; try done.
    destruct e; try done. rewrite Hf. done.
Qed.

Lemma published_delta s p m : gzip_ok z ->
  let v := if a_fresh s then crv_mass_revoke (a_crv s) p else a_crv s in bs_ok (crv_delta v) ->
  map (srh_and_dcrv z) (ca_published z c s (CPeriod p m)) =
  [(rsa_sign_string (cac_key c) (cac_self c) (srh_message (P:=P) (unpadded (S m)) (v_cur v) (crv_delta v)), crv_delta v)].
Proof.
  intros Hz v Hd. cbn [ca_published map]. unfold ca_end_period. cbn [a_rev]. unfold Logger.obj_at. rewrite lookup_insert.
  f_equal. apply (generated_decodes z (cac_key c) (cac_self c) (cac_signer c) v (a_online s) (unpadded (S m)) false); done.
Qed.

(** After the first period end all published deltas are empty. *)
Lemma published_after l : forall s, v_pre (a_crv s) = None -> a_fresh s = false -> gzip_ok z ->
  Forall (λ d, d = bs_new crv_size) (deltas z (all_published x z c cc s l)).
Proof.
  induction l as [|e l IH]; intros s Hp Hf Hz; [by constructor|].
  cbn [all_published]. unfold deltas. rewrite map_app. apply Forall_app. split.
  - destruct e; try (by constructor). pose proof (published_delta s l0 m Hz) as E. rewrite Hf in E. cbn zeta in E.
    unfold crv_delta in E. rewrite Hp in E. specialize (E (cur_ok_ok _ cur_ok_new)).
    rewrite <- (map_map (srh_and_dcrv z) snd), E. by constructor.
  - apply IH; [| |done].
    + rewrite step_crv. by destruct e.
    + rewrite step_fresh. by destruct e.
Qed.

Lemma indexes_ok_app l1 l2 : indexes_ok (l1 ++ l2) -> indexes_ok l1 /\ indexes_ok l2.
Proof.
  intros [H1 H2]. split; split.
  - intros i Hi. apply H1. apply elem_of_app. by left.
  - intros p m Hm. eapply H2. apply elem_of_app. by left.
  - intros i Hi. apply H1. apply elem_of_app. by right.
  - intros p m Hm. eapply H2. apply elem_of_app. by right.
Qed.

(** What every history publishes: the delta of the first period end, then empty ones. *)
Lemma published_deltas ty k d1 d2 l1 p m l2 : gzip_ok z -> no_period l1 -> indexes_ok (l1 ++ CPeriod p m :: l2) ->
  let s0 := ca_init x c ty k d1 d2 in
  let first := fold_left bs_set p (fold_left bs_set (singles l1) (bs_new crv_size)) in
  cur_ok first /\
  (exists r, deltas z (all_published x z c cc s0 (l1 ++ CPeriod p m :: l2)) = first :: r /\ Forall (λ d, d = bs_new crv_size) r) /\
  v_cur (a_crv (run s0 (l1 ++ CPeriod p m :: l2))) = fold_left bs_set (singles l2) first /\
  v_pre (a_crv (run s0 (l1 ++ CPeriod p m :: l2))) = None /\ a_fresh (run s0 (l1 ++ CPeriod p m :: l2)) = false.
Proof.
  intros Hz Hn Hi s0 first. destruct (run_before l1 s0 Hn) as (B1 & B2 & B3 & B4).
  assert (cur_ok first) as Hfirst.
  { unfold first. apply cur_ok_sets; [apply cur_ok_sets; [apply cur_ok_new|]|].
    - intros i Hin. apply Hi. apply elem_of_app. left. by apply singles_in.
    - eapply Hi. apply elem_of_app. right. by left. }
  set (s1 := run s0 l1) in *.
  assert (v_cur (a_crv s1) = fold_left bs_set (singles l1) (bs_new crv_size)) as C1 by exact B1.
  assert (v_pre (a_crv s1) = Some (bs_new crv_size)) as C2 by exact B2.
  assert (a_fresh s1 = true) as C3 by exact B3. clear B1 B2 B3.
  destruct (mass_cur p (a_crv s1)) as [M1 M2]. rewrite C1 in M1. fold first in M1. rewrite C2 in M2.
  assert (v_pre (a_crv (step s1 (CPeriod p m))) = None) as A1 by (rewrite step_crv; done).
  assert (a_fresh (step s1 (CPeriod p m)) = false) as A2 by done.
  assert (v_cur (a_crv (step s1 (CPeriod p m))) = first) as A3 by (rewrite step_crv, C3; exact M1).
  destruct (run_after l2 (step s1 (CPeriod p m)) A1 A2) as (R1 & R2 & R3).
  rewrite run_app. fold s1. change (run s1 (CPeriod p m :: l2)) with (run (step s1 (CPeriod p m)) l2).
  rewrite R1, R2, R3, A3. split_and!; try done.
  exists (deltas z (all_published x z c cc (step s1 (CPeriod p m)) l2)). split.
  - rewrite published_app, B4. fold s1. cbn [app all_published]. unfold deltas. rewrite map_app.
    rewrite <- (map_map (srh_and_dcrv z) snd (ca_published _ _ _ _)).
    rewrite published_delta; [|exact Hz|]; rewrite C3; unfold crv_delta; rewrite M1, M2, bs_symdiff_new; try apply Hfirst.
    + done.
    + apply cur_ok_ok. done.
  - apply published_after; done.
Qed.

Lemma unions_empty r : forall d, cur_ok d -> Forall (λ d, d = bs_new crv_size) r -> fold_left bs_union r d = d.
Proof.
  induction r as [|e r IH]; intros d Hd Hr; [done|]. apply Forall_cons in Hr as [-> Hr]. cbn [fold_left].
  rewrite bs_union_new by apply Hd. by apply IH.
Qed.

(** Every history up to and including the first period end splits like this. *)
Lemma split_first l p m : CPeriod p m ∈ l -> exists l1 p' m' l2, l = (l1 ++ CPeriod p' m' :: l2)%list /\ no_period l1.
Proof.
  induction l as [|e l IH]; intros Hin; [by apply elem_of_nil in Hin|].
  destruct (match e with CPeriod p' m' => Some (p', m') | _ => None end) as [[p' m']|] eqn:E.
  - destruct e; try done. injection E as -> ->. exists [], p', m', l. split; [done|]. intros ? ? H. by apply elem_of_nil in H.
  - apply elem_of_cons in Hin as [<-|Hin]; [done|]. destruct (IH Hin) as (l1 & p1 & m1 & l2 & -> & Hn).
    exists (e :: l1), p1, m1, l2. split; [done|]. intros p2 m2 [<-|H]%elem_of_cons; [done|]. by eapply Hn.
Qed.

Lemma period_or_not l : (exists p m, CPeriod p m ∈ l) \/ no_period l.
Proof.
  induction l as [|e l [(p & m & H)|H]].
  - right. intros p m Hin. by apply elem_of_nil in Hin.
  - left. exists p, m. by right.
  - destruct e; try (right; intros p' m' [E|E]%elem_of_cons; [done|by eapply H]). left. eexists _, _. by left.
Qed.

(** Exactly the revocations up to the first period end are ever published ... *)
Lemma published_exactly ty k d1 d2 l1 p m l2 i : gzip_ok z -> no_period l1 -> indexes_ok (l1 ++ CPeriod p m :: l2) ->
  (exists d, d ∈ deltas z (all_published x z c cc (ca_init x c ty k d1 d2) (l1 ++ CPeriod p m :: l2)) /\ revokes d i) <->
  i ∈ p \/ CRevoke i ∈ l1.
Proof.
  intros Hz Hn Hi. destruct (published_deltas ty k d1 d2 l1 p m l2 Hz Hn Hi) as (_ & (r & E & Hr) & _). rewrite E.
  assert (bs_test (fold_left bs_set p (fold_left bs_set (singles l1) (bs_new crv_size))) i = true <-> i ∈ p \/ CRevoke i ∈ l1) as F.
  { rewrite sets_test by apply sets_trim, bs_trim_new. rewrite sets_test by apply bs_trim_new.
    rewrite bs_test_new, singles_in. naive_solver. }
  split.
  - intros (d & [->|Hd]%elem_of_cons & Ht).
    + by apply F, revokes_test.
    + rewrite Forall_forall in Hr. rewrite (Hr _ Hd) in Ht. rewrite revokes_test, bs_test_new in Ht. done.
  - intros H. eexists. split; [by left|]. by apply revokes_test, F.
Qed.

(** ... while the vector contains all of them. *)
Lemma vector_exactly ty k d1 d2 l1 p m l2 i : gzip_ok z -> no_period l1 -> indexes_ok (l1 ++ CPeriod p m :: l2) ->
  revokes (v_cur (a_crv (run (ca_init x c ty k d1 d2) (l1 ++ CPeriod p m :: l2)))) i <->
  i ∈ p \/ CRevoke i ∈ l1 \/ CRevoke i ∈ l2.
Proof.
  intros Hz Hn Hi. destruct (published_deltas ty k d1 d2 l1 p m l2 Hz Hn Hi) as (Hf & _ & E & _). rewrite E.
  rewrite revokes_test. rewrite sets_test by apply Hf. rewrite sets_test by apply sets_trim, bs_trim_new.
  rewrite sets_test by apply bs_trim_new. rewrite bs_test_new, !singles_in. naive_solver.
Qed.

Lemma deltas_cover ty k d1 d2 l i : gzip_ok z -> indexes_ok l -> no_late_revocation l -> (exists p m, CPeriod p m ∈ l) ->
  revokes (v_cur (a_crv (run (ca_init x c ty k d1 d2) l))) i <->
  exists d, d ∈ deltas z (all_published x z c cc (ca_init x c ty k d1 d2) l) /\ revokes d i.
Proof.
  intros Hz Hi Hl (p0 & m0 & Hin). apply split_first in Hin as (l1 & p & m & l2 & -> & Hn).
  rewrite vector_exactly, published_exactly by done. split; [|naive_solver]. intros [H|[H|H]]; [by left|by right|].
  exfalso. apply elem_of_list_split in H as (l3 & l4 & ->).
  eapply (Hl (l1 ++ CPeriod p m :: l3)%list l4 i); [by rewrite <- app_assoc|]. apply elem_of_app. right. by left.
Qed.

(** The signed hash checks against the earlier deltas. *)
Lemma srh_checks ty k d1 d2 l p m pk : gzip_ok z -> indexes_ok (l ++ [CPeriod p m]) -> no_late_revocation (l ++ [CPeriod p m]) ->
  plain_id (cac_self c) = true -> cc_rsa_pubs cc !! cac_self c = Some pk -> (forall t, rsa_check pk t (rsa_sign (cac_key c) t) = true) ->
  let s := run (ca_init x c ty k d1 d2) l in
  let old := applied (deltas z (all_published x z c cc (ca_init x c ty k d1 d2) l)) in
  let g := obj_at (a_rev (step s (CPeriod p m))) (unpadded (S m)) in
  verify_srh cc (fst (srh_and_dcrv z g)) (snd (srh_and_dcrv z g)) old (g_period g) = Accept.
Proof.
  intros Hz Hi Hl Hp Hk Hc s old g.
  assert (g = generate_revocation z (cac_key c) (cac_self c) (cac_signer c)
                (if a_fresh s then crv_mass_revoke (a_crv s) p else a_crv s) (a_online s) (unpadded (S m)) false) as Eg.
  { unfold g, Logger.obj_at. cbn [ca_step ca_end_period a_rev]. by rewrite lookup_insert. }
  set (v := if a_fresh s then crv_mass_revoke (a_crv s) p else a_crv s) in *.
  assert (bs_ok (crv_delta v) /\ v_cur v = default (crv_delta v) old) as [Hok Hcur].
  { destruct (period_or_not l) as [(p' & m' & Hin)|Hn].
    - apply split_first in Hin as (l1 & p1 & m1 & l2 & E & Hn). subst l.
      destruct (indexes_ok_app _ _ Hi) as [Hi1 _].
      destruct (published_deltas ty k d1 d2 l1 p1 m1 l2 Hz Hn Hi1) as (Hf & (r & E & Hr) & E2 & E3 & E4).
      unfold v, s. rewrite E4. unfold crv_delta. rewrite E3. split; [apply cur_ok_ok, cur_ok_new|].
      unfold old. rewrite E. cbn [applied default from_option]. rewrite E2. change (default ?a (Some ?b)) with b.
      rewrite (unions_empty r) by done.
      assert (singles l2 = []) as ->; [|done].
      destruct (singles l2) as [|i t] eqn:F; [done|]. exfalso. assert (CRevoke i ∈ l2) as H by (apply singles_in; rewrite F; by left).
      apply elem_of_list_split in H as (l3 & l4 & ->).
      eapply (Hl (l1 ++ CPeriod p1 m1 :: l3)%list (l4 ++ [CPeriod p m])%list i); [by repeat (rewrite <- app_assoc; cbn [app])|]. apply elem_of_app. right. by left.
    - destruct (run_before l (ca_init x c ty k d1 d2) Hn) as (B1 & B2 & B3 & B4). fold s in B1, B2, B3.
      assert (a_fresh s = true) as C3 by exact B3. assert (v_pre (a_crv s) = Some (bs_new crv_size)) as C2 by exact B2.
      destruct (mass_cur p (a_crv s)) as [M1 M2]. unfold old. rewrite B4. change (default (crv_delta v) (applied (deltas z []))) with (crv_delta v).
      unfold v. rewrite C3. unfold crv_delta. rewrite M2, C2.
      assert (cur_ok (v_cur (crv_mass_revoke (a_crv s) p))) as Hok.
      { rewrite M1, B1. apply cur_ok_sets; [apply cur_ok_sets; [apply cur_ok_new|]|].
        - intros i H. apply Hi. apply elem_of_app. left. by apply singles_in.
        - eapply Hi. apply elem_of_app. right. by left. }
      rewrite bs_symdiff_new by apply Hok. split; [by apply cur_ok_ok|done]. }
  rewrite Eg, generated_decodes by done. cbn [fst snd]. erewrite verify_srh_signed by done.
  cbn [revocation_delta generate_revocation g_period]. rewrite Hcur, Hc. done.
Qed.
End ca.
