(** Proofs of inclusion arriving at a CA; the CA's two revocation objects; its answers. *)
From Verif Require Import Bytes Json Types Crypto Verify SpecCodec SpecVerify Merkle Cert CertPool CTngExt Clock SpecCert CertFacts ExtFacts.
From Verif Require Import Bitset BitsetFacts Revocation SpecLogger LoggerFacts SpecCA RevocationFacts CA CAFacts CARidFacts CodecFacts CryptoFacts.
Open Scope string_scope.

(* ---------------------------------------------------------------- *)
(** * The extension when all loggers are new *)

Lemma update_fresh l : forall c, carries c -> ext_ok (mkctng (x_rid (parse_ctng c)) (x_infos (parse_ctng c) ++ l)) ->
  NoDup (map (λ j, g_signer (li_sth j)) (x_infos (parse_ctng c) ++ l)) ->
  parse_ctng (fold_left update_ctng l c) = mkctng (x_rid (parse_ctng c)) (x_infos (parse_ctng c) ++ l).
Proof.
  induction l as [|i l IH]; intros c Hc Hx Hd; cbn [fold_left].
  - rewrite app_nil_r. by destruct (parse_ctng c).
  - assert (parse_ctng (update_ctng c i) = mkctng (x_rid (parse_ctng c)) (x_infos (parse_ctng c) ++ [i])) as E.
    { apply update_new; [done| |].
      - intros (j & Hj & Es). rewrite map_app in Hd. apply NoDup_app in Hd as (_ & Hd & _). apply (Hd (g_signer (li_sth j))).
        + apply elem_of_list_fmap. by exists j.
        + rewrite Es. left.
      - eapply ext_ok_sublist; [|exact Hx]. apply sublist_app; [done|]. apply sublist_skip. apply sublist_nil_l. }
    rewrite IH; rewrite ?E; cbn [x_rid x_infos]; rewrite <- ?app_assoc; try done. by apply update_carries.
Qed.

(* ---------------------------------------------------------------- *)
(** * The pool under updates *)

Lemma update_names crt i : c_subject (update_ctng crt i) = c_subject crt /\ c_ski (update_ctng crt i) = c_ski crt.
Proof. destruct (update_frame crt i) as [l ->]. done. Qed.

Lemma get_update (s : pool) k crt new j : indexed s -> get_by_ski s k = Some crt -> c_ski new = c_ski crt -> c_subject new = c_subject crt ->
  get_by_ski (update_by_ski s k new) j = if decide (j = k) then Some new else get_by_ski s j.
Proof.
  intros HI Hg Hk Hs. pose proof HI as [H1 _]. unfold get_by_ski, update_by_ski in *.
  destruct (indexes (p_by_ski s) k) as [|i r] eqn:E; [done|]. cbn [p_by_ski p_certs].
  destruct (decide (j = k)) as [->|Hn].
  - rewrite E. apply list_lookup_insert. by eapply lookup_lt_Some.
  - destruct (indexes (p_by_ski s) j) as [|i' r'] eqn:E'; [done|]. apply list_lookup_insert_ne. intros <-.
    assert (i ∈ positions (by_ski k) (p_certs s)) as Hi by (rewrite <- H1, E; left).
    assert (i ∈ positions (by_ski j) (p_certs s)) as Hj by (rewrite <- H1, E'; left).
    apply positions_in in Hi as (d1 & D1 & F1). apply positions_in in Hj as (d2 & D2 & F2).
    unfold by_ski in *. apply andb_true_iff in F1 as [_ F1]. apply andb_true_iff in F2 as [_ F2].
    apply String.eqb_eq in F1, F2. congruence.
Qed.

Section ca.
Context {P : prims} (x : x509lib) (z : gzip) (c : caconf P) (cc : cconf P).
Implicit Types (s : cast) (e : caevent) (l : list caevent).
Notation step := (ca_step x z c cc).
Notation run := (ca_run x z c cc).

Definition pool_ok (s : cast) : Prop := indexed (a_pool s) /\ Forall carries (p_certs (a_pool s)).

Lemma indexed_adds (l : list cert) : forall s : pool, indexed s -> indexed (fold_left add_cert l s).
Proof. induction l as [|d l IH]; intros s Hs; [done|]. cbn [fold_left]. by apply IH, indexed_add. Qed.

Lemma precert_carries d : carries (precert_of d).
Proof. eexists. split; [left|done]. Qed.

Lemma poi_pool s p : pool_ok s -> pool_ok (receive_poi s p).
Proof.
  intros [HI HC]. unfold receive_poi. destruct (get_by_ski _ _) as [crt|] eqn:E; [|done].
  set (i := mkloginfo _ p). destruct (update_names crt i) as [N1 N2]. split; cbn [a_pool set_a_pool].
  - apply indexed_update; [done|]. intros d Hd. assert (d = crt) as -> by congruence. done.
  - rewrite Forall_forall in *. intros d Hd. apply (update_in _ _ _ _ _ E) in Hd as [Hd| ->]; [by apply HC|].
    apply update_carries, HC. by eapply get_in.
Qed.

Lemma step_pool s e : pool_ok s -> pool_ok (step s e).
Proof.
  intros [HI HC]. destruct e; cbn [ca_step].
  - cbn [issue fst]. split; cbn [a_pool set_a_pool set_a_counter set_a_sths].
    + by apply indexed_adds.
    + rewrite Forall_forall in *. intros d Hd. apply adds_in in Hd as [Hd|Hd]; [by apply HC|].
      apply elem_of_list_fmap in Hd as (f & -> & _). apply precert_carries.
  - unfold pool_ok. destruct (sth_frame cc s g) as (_ & _ & _ & _ & _ & _ & _ & _ & _ & _ & ->). done.
  - by apply poi_pool.
  - unfold pool_ok. destruct (ask_frame s m) as (_ & _ & _ & _ & _ & _ & _ & -> & _). done.
  - done.
  - split; [apply indexed_new|constructor].
Qed.

Lemma run_pool l : forall s, pool_ok s -> pool_ok (run s l).
Proof. induction l as [|e l IH]; intros s Hs; [done|]. apply IH. by apply step_pool. Qed.

Lemma init_pool ty k d1 d2 : pool_ok (ca_init x c ty k d1 d2).
Proof. split; [apply indexed_new|constructor]. Qed.

Lemma poi_sths s p : a_sths (receive_poi s p) = a_sths s.
Proof. unfold receive_poi. by destruct (get_by_ski _ _). Qed.

Lemma pois_get ps : forall s k crt, pool_ok s -> get_by_ski (a_pool s) k = Some crt ->
  get_by_ski (a_pool (run s (map CPoi ps))) k =
  Some (fold_left update_ctng (map (info_of s) (List.filter (λ p, String.eqb (poi_ski p) k) ps)) crt).
Proof.
  induction ps as [|p ps IH]; intros s k crt Hs Hk; [done|].
  change (run s (map CPoi (p :: ps))) with (run (receive_poi s p) (map CPoi ps)). cbn [List.filter].
  assert (forall q, info_of (receive_poi s p) q = info_of s q) as Ei by (intros q; unfold info_of; by rewrite poi_sths).
  pose proof (poi_pool s p Hs) as Hs'.
  destruct (String.eqb_spec (poi_ski p) k) as [<-|Hn].
  - erewrite IH; [|done|]. 
    + cbn [map fold_left]. do 2 f_equal. apply map_ext. exact Ei.
    + unfold receive_poi. rewrite Hk. cbn [a_pool set_a_pool]. destruct (update_names crt (info_of s p)) as [N1 N2].
      erewrite get_update; [|apply Hs|exact Hk|exact N2|exact N1]. by rewrite decide_True.
  - erewrite IH; [|done|].
    + do 2 f_equal. apply map_ext. exact Ei.
    + unfold receive_poi. destruct (get_by_ski (a_pool s) (poi_ski p)) as [d|] eqn:Ed; [|exact Hk].
      cbn [a_pool set_a_pool]. destruct (update_names d (info_of s p)) as [N1 N2].
      erewrite get_update; [|apply Hs|exact Ed|exact N2|exact N1]. rewrite decide_False by (intros ->; done). exact Hk.
Qed.

(** Handlers running one after the other. *)
Lemma pois_listed ty n d1 d2 l ps k crt : let s := run (ca_init x c ty n d1 d2) l in
  let new := map (info_of s) (List.filter (λ p, String.eqb (poi_ski p) k) ps) in
  get_by_ski (a_pool s) k = Some crt ->
  ext_ok (mkctng (x_rid (parse_ctng crt)) (x_infos (parse_ctng crt) ++ new)) ->
  exists crt' added, get_by_ski (a_pool (run s (map CPoi ps))) k = Some crt' /\
    parse_ctng crt' = mkctng (x_rid (parse_ctng crt)) (x_infos (parse_ctng crt) ++ added) /\ sublist added new /\
    (forall p, p ∈ ps -> poi_ski p = k -> listed (info_of s p) (x_infos (parse_ctng crt'))) /\
    (NoDup (map (λ j, g_signer (li_sth j)) (x_infos (parse_ctng crt) ++ new)) -> added = new).
Proof.
  intros s new Hk Hx. assert (pool_ok s) as Hs by apply run_pool, init_pool.
  assert (carries crt) as Hc. { destruct Hs as [_ HC]. rewrite Forall_forall in HC. apply HC. by eapply get_in. }
  eexists. rewrite (pois_get ps s k crt Hs Hk). fold new.
  destruct (update_all new crt Hc Hx) as (added & E & Hsub & Hl & _). exists added. split_and!; [done|done|done| |].
  - intros p Hp Hpk. rewrite E. cbn [x_infos]. apply Hl. apply elem_of_list_fmap. exists p. split; [done|].
    apply elem_of_list_In, List.filter_In. split; [by apply elem_of_list_In|]. by apply String.eqb_eq.
  - intros Hd. rewrite update_fresh in E by done. by apply (f_equal x_infos), (app_inv_head (x_infos (parse_ctng crt))) in E.
Qed.

(** The tree head stored for a logger is verified and signed under that logger's name. *)
Definition sths_ok s : Prop := forall k g, a_sths s !! k = Some g -> g_signer g = k /\ verify cc g = Accept.
Lemma step_sths s e : sths_ok s -> sths_ok (step s e).
Proof.
  intros H. destruct e; cbn [ca_step]; unfold sths_ok in *.
  - cbn [issue fst a_sths set_a_pool set_a_counter set_a_sths]. intros k g Hk. by rewrite lookup_empty in Hk.
  - unfold receive_sth. destruct (verify cc g) eqn:E; cbn [fst]; [|done|done].
    cbn [a_sths set_a_sths]. intros k g' Hk. destruct (decide (g_signer g = k)) as [<-|Hn].
    + rewrite lookup_insert in Hk. apply (inj Some) in Hk as <-. done.
    + rewrite lookup_insert_ne in Hk by done. by apply H.
  - by rewrite poi_sths.
  - unfold request_rev. cbn [fst]. destruct (Z.eqb (a_type s) 0); done.
  - done.
  - done.
Qed.
Lemma run_sths l : forall s, sths_ok s -> sths_ok (run s l).
Proof. induction l as [|e l IH]; intros s Hs; [done|]. apply IH. by apply step_sths. Qed.
Lemma init_sths ty k d1 d2 l : sths_ok (run (ca_init x c ty k d1 d2) l).
Proof. apply run_sths. intros j g Hj. cbn in Hj. by rewrite lookup_empty in Hj. Qed.

(* ---------------------------------------------------------------- *)
(** * The two revocation objects *)

Lemma marshal_set b i : bs_ok b -> bs_trim b -> bs_ok (bs_set b i) -> bs_marshal (bs_set b i) = bs_marshal b -> bs_test b i = true.
Proof.
  intros Hb Ht Hi E. apply bs_marshal_inj in E; [|done..].
  pose proof (bs_test_set b i i Ht) as F. rewrite E, N.eqb_refl in F. exact F.
Qed.

Lemma set_same b i : bs_trim b -> bs_test b i = true -> bs_set b i = b.
Proof.
  intros Ht H. rewrite bs_test_trim in H by done. pose proof (Ht i H) as Hl. destruct b as [n v]. unfold bs_set. cbn [bs_len bs_bits] in *.
  f_equal; [lia|]. apply N.bits_inj. intros j. rewrite N.setbit_eqb. destruct (N.eqb_spec i j) as [<-|]; [by rewrite H|done].
Qed.

(** The vector at a period end, and its delta. *)
Definition vector_at s (p : list N) : crv := if a_fresh s then crv_mass_revoke (a_crv s) p else a_crv s.

Lemma delta_ok ty k d1 d2 l p m : gzip_ok z -> indexes_ok (l ++ [CPeriod p m]) ->
  cur_ok (crv_delta (vector_at (run (ca_init x c ty k d1 d2) l) p)).
Proof.
  intros Hz Hi. set (s := run _ l). unfold vector_at. destruct (period_or_not l) as [(p' & m' & Hin)|Hn].
  - apply split_first in Hin as (l1 & p1 & m1 & l2 & E & Hn). subst l.
    destruct (indexes_ok_app _ _ Hi) as [Hi1 _].
    destruct (published_deltas x z c cc ty k d1 d2 l1 p1 m1 l2 Hz Hn Hi1) as (Hf & _ & E2 & E3 & E4).
    unfold s. rewrite E4. unfold crv_delta. rewrite E3. apply cur_ok_new.
  - destruct (run_before x z c cc l (ca_init x c ty k d1 d2) Hn) as (B1 & B2 & B3 & B4). fold s in B1, B2, B3.
    assert (a_fresh s = true) as C3 by exact B3. assert (v_pre (a_crv s) = Some (bs_new crv_size)) as C2 by exact B2.
    destruct (mass_cur p (a_crv s)) as [M1 M2]. rewrite C3. unfold crv_delta. rewrite M2, C2.
    assert (cur_ok (v_cur (crv_mass_revoke (a_crv s) p))) as Hok.
    { rewrite M1, B1. apply cur_ok_sets; [apply cur_ok_sets; [apply cur_ok_new|]|].
      - intros i H. apply Hi. apply elem_of_app. left. by apply singles_in.
      - eapply Hi. apply elem_of_app. right. by left. }
    by rewrite bs_symdiff_new by apply Hok.
Qed.

Lemma period_objects s p m :
  obj_at (a_rev (step s (CPeriod p m))) (unpadded (S m)) =
    generate_revocation z (cac_key c) (cac_self c) (cac_signer c) (vector_at s p) (a_online s) (unpadded (S m)) false /\
  obj_at (a_fake (step s (CPeriod p m))) (unpadded (S m)) =
    generate_revocation z (cac_key c) (cac_self c) (cac_signer c) (vector_at s p) (a_online s) (unpadded (S m)) true.
Proof. unfold Logger.obj_at. cbn [ca_step ca_end_period a_rev a_fake]. by rewrite !lookup_insert. Qed.

Lemma step_counts s e : a_type (step s e) = a_type s /\ a_interval (step s e) = a_interval s /\
  a_count (step s e) = match e with CAsk _ => if Z.eqb (a_type s) 0 then a_count s else (a_count s + 1)%Z | CPeriod _ _ => 0%Z | _ => a_count s end /\
  a_online (step s e) = match e with CPeriod _ _ => if Z.ltb 0 (a_count s) then (a_online s + 1)%Z else a_online s | _ => a_online s end.
Proof.
  destruct e; cbn [ca_step]; try done.
  - destruct (sth_frame cc s g) as (_ & _ & _ & _ & H1 & _ & _ & H2 & H3 & H4 & _). done.
  - destruct (poi_frame s p) as (_ & _ & _ & _ & H1 & _ & _ & H2 & H3 & H4). done.
  - unfold request_rev. cbn [fst]. destruct (Z.eqb (a_type s) 0); done.
Qed.

Definition ca_counters (l : list caevent) (n0 a0 : Z) : Z * Z :=
  fold_left (λ '(n, a) e, match e with
                          | CAsk _ => (n + 1, a)
                          | CPeriod _ _ => (0, if 0 <? n then a + 1 else a)
                          | _ => (n, a)
                          end)%Z l (n0, a0).

Lemma run_type l : forall s, a_type (run s l) = a_type s /\ a_interval (run s l) = a_interval s.
Proof.
  induction l as [|e l IH]; intros s; [done|]. change (run s (e :: l)) with (run (step s e) l).
  destruct (IH (step s e)) as [-> ->]. destruct (step_counts s e) as (-> & -> & _). done.
Qed.

Lemma run_counts l : forall s, a_type s <> 0%Z -> (a_count (run s l), a_online (run s l)) = ca_counters l (a_count s) (a_online s).
Proof.
  induction l as [|e l IH]; intros s Ht; [done|]. change (run s (e :: l)) with (run (step s e) l).
  destruct (step_counts s e) as (Et & _ & En & Eo). rewrite IH by by rewrite Et. rewrite En, Eo.
  apply Z.eqb_neq in Ht. rewrite Ht. unfold ca_counters. cbn [fold_left]. by destruct e.
Qed.

Lemma counters_bound l : forall n a, (0 <= n)%Z -> (0 <= a)%Z ->
  (0 <= fst (ca_counters l n a))%Z /\ (0 <= snd (ca_counters l n a) <= a + Z.of_nat (length l))%Z.
Proof.
  induction l as [|e l IH]; intros n a Hn Ha; [cbn; lia|]. unfold ca_counters in *. cbn [fold_left length].
  destruct e; try (destruct (IH n a Hn Ha); lia).
  - destruct (IH (n + 1)%Z a); lia.
  - destruct (Z.ltb 0 n); [destruct (IH 0%Z (a + 1)%Z)|destruct (IH 0%Z a)]; lia.
Qed.

Lemma online_bound ty k d1 d2 l : (0 <= a_online (run (ca_init x c ty k d1 d2) l) <= Z.of_nat (length l))%Z.
Proof.
  set (s0 := ca_init x c ty k d1 d2).
  destruct (Z.eq_dec ty 0%Z) as [E|E].
  - assert (forall l s, a_type s = 0%Z -> a_count s = 0%Z -> a_online s = 0%Z -> a_online (run s l) = 0%Z) as H.
    { clear. induction l as [|e l IH]; intros s Ht Hc Ho; [done|]. change (run s (e :: l)) with (run (step s e) l).
      destruct (step_counts s e) as (Et & _ & En & Eo). rewrite Ht, Hc in *. apply IH; [done|rewrite En; by destruct e|].
      rewrite Eo. by destruct e. }
    rewrite H; [lia|exact E|done..].
  - pose proof (run_counts l s0 E) as H. destruct (counters_bound l 0%Z 0%Z) as [_ B]; [lia..|].
    apply (f_equal snd) in H. cbn [snd] in H. change (snd (ca_counters l 0%Z 0%Z)) with (snd (ca_counters l (a_count s0) (a_online s0))) in B.
    rewrite <- H in B. lia.
Qed.

Lemma fake_delta s p : (0 <= a_online s < 18446744073709551614)%Z -> cur_ok (crv_delta (vector_at s p)) ->
  revocation_delta (vector_at s p) (a_online s) true = bs_set (crv_delta (vector_at s p)) (Z.to_N (1 + a_online s)).
Proof.
  intros Ho Hd. unfold revocation_delta. rewrite bs_roundtrip by by apply cur_ok_ok. rewrite to_uint_small by lia. done.
Qed.

Lemma bs_ok_set_cur b i : cur_ok b -> index_ok i -> cur_ok (bs_set b i).
Proof. intros Hb Hi. apply (cur_ok_sets [i] b Hb). intros j ->%elem_of_list_singleton. done. Qed.

(** The other object is evidence exactly if its extra bit is not already in the delta. *)
Lemma two_objects ty k d1 d2 l p m : gzip_ok z -> indexes_ok (l ++ [CPeriod p m]) -> (Z.of_nat (length l) < 18446744073709551614)%Z ->
  let s := run (ca_init x c ty k d1 d2) l in
  let real := obj_at (a_rev (step s (CPeriod p m))) (unpadded (S m)) in
  let fake := obj_at (a_fake (step s (CPeriod p m))) (unpadded (S m)) in
  (evidence real fake <-> ~ revokes (snd (srh_and_dcrv z real)) (Z.to_N (1 + a_online s))) /\
  (fake = real <-> revokes (snd (srh_and_dcrv z real)) (Z.to_N (1 + a_online s))) /\
  (forall i, revokes (snd (srh_and_dcrv z fake)) i <-> revokes (snd (srh_and_dcrv z real)) i \/ i = Z.to_N (1 + a_online s)).
Proof.
  intros Hz Hi Hlen s real fake. pose proof (delta_ok ty k d1 d2 l p m Hz Hi) as Hd. fold s in Hd.
  pose proof (online_bound ty k d1 d2 l) as Ho. fold s in Ho.
  destruct (period_objects s p m) as [Er Ef]. fold real in Er. fold fake in Ef.
  set (v := vector_at s p) in *. set (j := Z.to_N (1 + a_online s)).
  assert (revocation_delta v (a_online s) true = bs_set (crv_delta v) j) as Efd by (apply fake_delta; [lia|done]).
  assert (index_ok j) as Hj by (unfold index_ok, j; lia).
  assert (cur_ok (bs_set (crv_delta v) j)) as Hd' by by apply bs_ok_set_cur.
  assert (snd (srh_and_dcrv z real) = crv_delta v) as Dr.
  { rewrite Er, generated_decodes; [done|done|]. by apply cur_ok_ok. }
  assert (snd (srh_and_dcrv z fake) = bs_set (crv_delta v) j) as Df.
  { rewrite Ef, generated_decodes; rewrite ?Efd; [done|done|]. by apply cur_ok_ok. }
  rewrite Dr, Df. setoid_rewrite revokes_test.
  assert (bs_test (crv_delta v) j = true -> fake = real) as Hsame.
  { intros H. rewrite Er, Ef. unfold generate_revocation. rewrite Efd. rewrite set_same by (try apply Hd; done). done. }
  assert (g_p2 real = g_p2 fake -> bs_test (crv_delta v) j = true) as Hp2.
  { rewrite Er, Ef. cbn [generate_revocation g_p2]. intros H%rev_marshal_inj. apply (f_equal rv_delta) in H. cbn [rv_delta] in H.
    apply (f_equal (gz_unpack z)) in H. rewrite !Hz in H. apply (inj Some) in H. rewrite Efd in H. symmetry in H.
    eapply marshal_set; [| | |exact H]; [by apply cur_ok_ok|apply Hd|by apply cur_ok_ok]. }
  split_and!.
  - split.
    + intros (_ & _ & Hne) Ht. apply Hne. by rewrite (Hsame Ht).
    + intros Ht. unfold evidence. split_and!; [by rewrite Er, Ef|by rewrite Er, Ef|]. intros E. by apply Ht, Hp2.
  - split; [|done]. intros E. apply Hp2. by rewrite E.
  - intros i. rewrite bs_test_set by apply Hd. rewrite orb_true_iff, N.eqb_eq. naive_solver.
Qed.

Lemma objects_verify ty k d1 d2 l p m pk : gzip_ok z ->
  cc_sign_scheme cc = "rsa" -> cc_rsa_pubs cc !! cac_self c = Some pk -> plain_id (cac_self c) = true -> cac_signer c <> "" ->
  (forall t, rsa_check pk t (rsa_sign (cac_key c) t) = true) ->
  let s := step (run (ca_init x c ty k d1 d2) l) (CPeriod p m) in
  verify cc (obj_at (a_rev s) (unpadded (S m))) = Accept /\ verify cc (obj_at (a_fake s) (unpadded (S m))) = Accept.
Proof.
  intros Hz Hs Hk Hp Hn Hc s. destruct (period_objects (run (ca_init x c ty k d1 d2) l) p m) as [Er Ef]. fold s in Er, Ef.
  rewrite Er, Ef. split; eapply generated_verifies; eauto.
Qed.

(* ---------------------------------------------------------------- *)
(** * Answers *)

Lemma rem_every' k n : k <> 0%Z -> (Z.eqb (Z.rem n k) 0 = true <-> every k n).
Proof. apply rem_every. Qed.

Lemma request_as_configured s m b : a_interval s <> 0%Z ->
  configured (a_type s) (a_interval s) (a_online s) (a_count s + 1) b -> snd (request_rev s m) = shown_rev s m b.
Proof.
  intros Hk Hb. unfold request_rev. cbn [snd].
  pose proof (rem_every' (a_interval s) (a_count s + 1) Hk) as Hr.
  apply Z.eqb_neq in Hk.
  assert (Z.eqb (a_online s) 1 = true <-> a_online s = 1%Z) as H1 by apply Z.eqb_eq.
  destruct Hb as [E|[E|E] Hn Ha|[E|E] Hn|E|E Hn|E Hn|E Ha|E Ha|E Hn Ha|E Hn]; rewrite !E;
    cbn -[Z.rem]; rewrite ?E, ?Hk; cbn [shown_rev]; try done;
    destruct (Z.eqb (Z.rem (a_count s + 1) (a_interval s)) 0); destruct (Z.eqb (a_online s) 1); cbn [andb orb]; try done; exfalso; intuition congruence.
Qed.

Lemma request_normal s m : a_type s = 0%Z -> snd (request_rev s m) = shown_rev s m Honest.
Proof. intros H. destruct s. cbn in H. subst. reflexivity. Qed.

Lemma ca_configured ty k d1 d2 l m b : k <> 0%Z -> configured ty k (ca_active l) (ca_asked l + 1) b ->
  snd (request_rev (run (ca_init x c ty k d1 d2) l) m) = shown_rev (run (ca_init x c ty k d1 d2) l) m b.
Proof.
  intros Hk Hb. set (s0 := ca_init x c ty k d1 d2). destruct (run_type l s0) as [Et Ei].
  destruct (Z.eq_dec ty 0%Z) as [E|E].
  - destruct Hb; try lia. change (a_type s0) with ty in Et. rewrite E in Et. by apply request_normal.
  - pose proof (run_counts l s0 E) as H. change (ca_counters l (a_count s0) (a_online s0)) with (ca_counters l 0%Z 0%Z) in H.
    assert (fst (ca_counters l 0%Z 0%Z) = ca_asked l) as Ha.
    { assert (forall l n a, fst (ca_counters l n a) = fold_left (λ n e, match e with CAsk _ => n + 1 | CPeriod _ _ => 0 | _ => n end)%Z l n) as G.
      { clear. induction l as [|e l IH]; intros n a; [done|]. unfold ca_counters in *. cbn [fold_left]. by destruct e. }
      apply G. }
    assert (snd (ca_counters l 0%Z 0%Z) = ca_active l) as Hc by done.
    rewrite <- H in Ha, Hc. cbn [fst snd] in Ha, Hc.
    apply request_as_configured; rewrite ?Ei, ?Et; [done|]. rewrite Ha, Hc. exact Hb.
Qed.

Lemma unpadded_inj a b : unpadded a = unpadded b -> a = b.
Proof. unfold unpadded. intros H. apply (f_equal atoi) in H. rewrite !atoi_itoa in H. apply (inj Some) in H. lia. Qed.

Lemma run_rev l : forall s m, no_period_for m l ->
  obj_at (a_rev (run s l)) (unpadded m) = obj_at (a_rev s) (unpadded m) /\ obj_at (a_fake (run s l)) (unpadded m) = obj_at (a_fake s) (unpadded m).
Proof.
  induction l as [|e l IH]; intros s m Hn; [done|]. change (run s (e :: l)) with (run (step s e) l).
  destruct (IH (step s e) m) as [-> ->]. { intros p m' H. eapply Hn. by right. }
  destruct e; cbn [ca_step]; try done.
  - destruct (sth_frame cc s g) as (_ & _ & _ & _ & _ & -> & -> & _). done.
  - destruct (poi_frame s p) as (_ & _ & _ & _ & _ & -> & -> & _). done.
  - destruct (ask_frame s m0) as (_ & _ & _ & _ & _ & -> & -> & _). done.
  - unfold Logger.obj_at. cbn [ca_end_period a_rev a_fake].
    rewrite !lookup_insert_ne; [done|..]; intros H%unpadded_inj; eapply Hn; [left| |left|]; done.
Qed.

Lemma ca_available k d1 d2 l p m l' : m <> 59 -> gzip_ok z -> no_period_for (next_minute m) l' ->
  indexes_ok (l ++ [CPeriod p m]) ->
  let s := run (ca_init x c 0 k d1 d2) (l ++ CPeriod p m :: l') in
  exists g, snd (request_rev s (next_minute m)) = Answer g /\ g_type g = REV_INIT /\ g_signer g = cac_signer c /\
    g_period g = unpadded (next_minute m) /\ all_published x z c cc (ca_init x c 0 k d1 d2) (l ++ [CPeriod p m]) = 
      (all_published x z c cc (ca_init x c 0 k d1 d2) l ++ [g])%list.
Proof.
  intros Hm Hz Hn Hi s. assert (next_minute m = S m) as E. { unfold next_minute. apply Nat.eqb_neq in Hm. by rewrite Hm. }
  rewrite E in *. destruct (run_type (l ++ CPeriod p m :: l') (ca_init x c 0 k d1 d2)) as [Et _]. fold s in Et.
  exists (obj_at (a_rev s) (unpadded (S m))). change (a_type (ca_init x c 0 k d1 d2)) with 0%Z in Et. split; [by apply request_normal|].
  unfold s. rewrite run_app. change (run (run (ca_init x c 0 k d1 d2) l) (CPeriod p m :: l')) with (run (step (run (ca_init x c 0 k d1 d2) l) (CPeriod p m)) l').
  destruct (run_rev l' (step (run (ca_init x c 0 k d1 d2) l) (CPeriod p m)) (S m) Hn) as [-> _].
  destruct (period_objects (run (ca_init x c 0 k d1 d2) l) p m) as [Er _]. split_and!; try (rewrite Er; done).
  rewrite published_app. cbn [all_published ca_published]. by rewrite app_nil_r.
Qed.
End ca.
