(** A certificate, from its issuance to the inclusion proof it carries. *)
From Verif Require Import Bytes Hex Json Types Crypto Verify Bitset Cert CertPool CTngExt Revocation Clock Prog Gossiper Network Overlap System SpecVerify SpecCert SpecGossiper SpecCodec SpecLogger SpecCA SpecNetwork SpecOverlap SpecSystem SpecSystemDetect SpecSystemDeliver SystemFacts SystemRuns SystemRevoke CertFacts ExtFacts CodecFacts.
From Verif Require Logger CA LoggerFacts CAFacts CARidFacts CAPoiFacts Merkle MerkleFacts Client SpecClient ClientFacts WireFacts.
From Coq Require Import Lia.
Open Scope string_scope.

(* ---------------------------------------------------------------- *)
(** * Pools *)

Lemma pool_add_in (s : CertPool.pool) d : indexed s -> (forall y, y ∈ p_certs s -> c_subject y <> c_subject d) -> d ∈ p_certs (add_cert s d).
Proof.
  intros HI Hn. rewrite add_cert_certs by done. destruct (existsb (same_cert d) (p_certs s)) eqn:E.
  - apply existsb_exists in E as (y & Hy & Hs). apply andb_true_iff in Hs as [Hs _]. apply String.eqb_eq in Hs.
    exfalso. apply (Hn y); [by apply elem_of_list_In|done].
  - apply elem_of_app. right. by left.
Qed.

Lemma pool_add_mono (s : CertPool.pool) d y : indexed s -> y ∈ p_certs s -> y ∈ p_certs (add_cert s d).
Proof. intros HI Hy. rewrite add_cert_certs by done. destruct (existsb _ _); [done|]. apply elem_of_app. by left. Qed.

Lemma find_app_some {A} (f : A -> bool) (l r : list A) a : find f l = Some a -> find f (l ++ r)%list = Some a.
Proof. induction l as [|b l IH]; [done|]. cbn. by destruct (f b). Qed.

Lemma get_add (s : CertPool.pool) d k y : indexed s -> get_by_ski s k = Some y -> get_by_ski (add_cert s d) k = Some y.
Proof.
  intros HI. rewrite !get_by_ski_spec by (try done; by apply indexed_add). destruct (is_empty k); [done|].
  rewrite add_cert_certs by done. destruct (existsb _ _); [done|]. apply find_app_some.
Qed.

Lemma get_adds (l : list cert) : forall (s : CertPool.pool) k y, indexed s -> get_by_ski s k = Some y -> get_by_ski (fold_left add_cert l s) k = Some y.
Proof. induction l as [|d l IH]; intros s k y HI H; [done|]. cbn. apply IH; [by apply indexed_add|by apply get_add]. Qed.

(** A new certificate is found under its key identifier. *)
Lemma get_new (l : list cert) : forall (s : CertPool.pool) crt, indexed s -> crt ∈ l -> c_ski crt <> "" ->
  (forall d, d ∈ p_certs s -> c_subject d <> c_subject crt /\ c_ski d <> c_ski crt) ->
  (forall d, d ∈ l -> c_subject d = c_subject crt \/ c_ski d = c_ski crt -> d = crt) ->
  get_by_ski (fold_left add_cert l s) (c_ski crt) = Some crt.
Proof.
  induction l as [|d l IH]; intros s crt HI Hin Hk Hs Hl; [by apply elem_of_nil in Hin|]. cbn [fold_left].
  destruct (decide (d = crt)) as [->|Hd].
  - apply get_adds; [by apply indexed_add|]. rewrite get_by_ski_spec by (by apply indexed_add).
    destruct (is_empty (c_ski crt)) eqn:E; [by apply is_empty_eq in E|]. rewrite add_cert_certs by done.
    destruct (existsb (same_cert crt) (p_certs s)) eqn:E2.
    + apply existsb_exists in E2 as (y & Hy & Hsa). apply andb_true_iff in Hsa as [Hsa _]. apply String.eqb_eq in Hsa.
      exfalso. apply elem_of_list_In in Hy. destruct (Hs y Hy) as [? _]. done.
    + clear E2 Hin Hl. induction (p_certs s) as [|y r IHr]; cbn; [by rewrite String.eqb_refl|].
      destruct (String.eqb_spec (c_ski y) (c_ski crt)) as [E3|E3].
      * exfalso. destruct (Hs y) as [_ ?]; [by left|done].
      * apply IHr. intros y' Hy'. apply Hs. by right.
  - apply elem_of_cons in Hin as [->|Hin]; [done|]. apply IH; try done.
    + by apply indexed_add.
    + intros y Hy. apply CARidFacts.add_in in Hy as [Hy| ->]; [by apply Hs|].
      split; intros E; apply Hd, Hl; try (by left); auto.
    + intros y Hy. apply Hl. by right.
Qed.

(* ---------------------------------------------------------------- *)
(** * The CA *)

Local Notation for_same crt d := (same_subject d crt) (only parsing).
Lemma for_same_update crt d i : for_same crt d -> for_same crt (update_ctng d i).
Proof. destruct (update_frame d i) as [l ->]. done. Qed.
Lemma extra_update d i : c_extra (update_ctng d i) = c_extra d.
Proof. destruct (update_frame d i) as [l ->]. done. Qed.

Section one.
Context {P : prims} (x : CA.x509lib) (z : gzip) (c : CA.caconf P) (cc : cconf P).
Notation step := (CA.ca_step x z c cc).

Lemma gen_at root offset ds : forall i n j f, CA.generate_n x c root offset i n ds !! j = Some f ->
  c_subject f = CA.xl_name x ("Testing Dummy " ++ itoa (i + Z.of_nat j + offset)) /\ exists d, ds !! j = Some d /\ c_ski f = h_sha256 P (CA.d_pub d).
Proof.
  induction ds as [|d ds IH]; intros i n j f Hj; [done|]. cbn [CA.generate_n] in Hj. destruct j as [|j].
  - injection Hj as <-. replace (i + Z.of_nat 0 + offset)%Z with (i + offset)%Z by lia. split; [done|]. by exists d.
  - apply IH in Hj as [-> ?]. by replace (i + 1 + Z.of_nat j + offset)%Z with (i + Z.of_nat (S j) + offset)%Z by lia.
Qed.

Lemma gen_distinct root offset ds n f1 f2 : (forall a b, CA.xl_name x a = CA.xl_name x b -> a = b) -> NoDup (map (λ d, h_sha256 P (CA.d_pub d)) ds) ->
  f1 ∈ CA.generate_n x c root offset 0 n ds -> f2 ∈ CA.generate_n x c root offset 0 n ds ->
  c_subject f1 = c_subject f2 \/ c_ski f1 = c_ski f2 -> f1 = f2.
Proof.
  intros Hx Hn [i Hi]%elem_of_list_lookup [j Hj]%elem_of_list_lookup H.
  destruct (gen_at _ _ _ _ _ _ _ Hi) as (S1 & d1 & D1 & K1). destruct (gen_at _ _ _ _ _ _ _ Hj) as (S2 & d2 & D2 & K2).
  assert (i = j) as ->; [|congruence]. destruct H as [H|H].
  - rewrite S1, S2 in H. apply Hx, app_inj_l, itoa_inj in H. lia.
  - rewrite K1, K2 in H. eapply NoDup_lookup; [exact Hn|..]; rewrite list_lookup_fmap; [rewrite D1|rewrite D2]; cbn; [reflexivity|by f_equal].
Qed.

(** What is found under a key identifier after an event of the CA that does not end the period. *)
Lemma found_step s e k d crt : CAPoiFacts.pool_ok s -> (forall rs m, e <> CA.CPeriod rs m) ->
  get_by_ski (CA.a_pool s) k = Some d -> for_same crt d -> c_extra d = [] ->
  exists d', get_by_ski (CA.a_pool (step s e)) k = Some d' /\ for_same crt d' /\ c_extra d' = [].
Proof.
  intros [HI HC] Hp Hg Hf Hx. destruct e as [ds|g|p|m|i|rs m]; cbn [CA.ca_step].
  - exists d. split; [|done]. cbn [CA.issue fst CA.a_pool CA.set_a_pool CA.set_a_counter CA.set_a_sths]. by apply get_adds.
  - exists d. split; [|done]. by destruct (CAFacts.sth_frame cc s g) as (_ & _ & _ & _ & _ & _ & _ & _ & _ & _ & ->).
  - unfold CA.receive_poi. destruct (get_by_ski (CA.a_pool s) (poi_ski p)) as [y|] eqn:Ey; [|by exists d].
    cbn [CA.a_pool CA.set_a_pool]. destruct (CAPoiFacts.update_names y (mkloginfo (CA.obj_at (CA.a_sths s) (poi_logger p)) p)) as [N1 N2].
    rewrite (CAPoiFacts.get_update _ _ y _ k HI Ey N2 N1). case_decide as E; [|by exists d].
    subst k. rewrite Ey in Hg. injection Hg as ->. eexists. split; [done|]. split; [by apply for_same_update|by rewrite extra_update].
  - exists d. split; [|done]. by destruct (CAFacts.ask_frame s m) as (_ & _ & _ & _ & _ & _ & _ & -> & _).
  - by exists d.
  - by destruct (Hp rs m).
Qed.

Lemma head_step s e k g : (forall ds, e <> CA.CIssue ds) -> (forall rs m, e <> CA.CPeriod rs m) -> (forall g', e = CA.CSth g' -> g_signer g' = k -> g' = g) ->
  CA.a_sths s !! k = Some g -> CA.a_sths (step s e) !! k = Some g.
Proof.
  intros Hi Hp Hg H. destruct e as [ds|g'|p|m|i|rs m]; cbn [CA.ca_step].
  - by destruct (Hi ds).
  - unfold CA.receive_sth. destruct (verify cc g'); [|done|done]. cbn. destruct (decide (g_signer g' = k)) as [E|E].
    + rewrite E, lookup_insert. f_equal. by apply Hg.
    + by rewrite lookup_insert_ne.
  - by rewrite CAPoiFacts.poi_sths.
  - unfold CA.request_rev. cbn [fst]. by destruct (Z.eqb (CA.a_type s) 0).
  - done.
  - by destruct (Hp rs m).
Qed.
End one.

(* ---------------------------------------------------------------- *)
(** * In the system *)

Section sys.
Context {P : prims} (z : gzip) (x : CA.x509lib) (S : sysconf P).
Notation wrun := (wrun z x S).
Notation wstep := (wstep z x S).

(** A property of the CA kept by its part of the events. *)
Lemma ca_keeps e c cc (I : CA.cast -> Prop) W l : sy_cas S !! e = Some (c, cc) -> forall s, w_cas W !! e = Some s -> I s ->
  (forall l1 ev l2 ce s', l = (l1 ++ ev :: l2)%list -> ce ∈ ca_part e (wrun W l1) ev -> I s' -> I (CA.ca_step x z c cc s' ce)) ->
  exists s', w_cas (wrun W l) !! e = Some s' /\ I s'.
Proof.
  intros Hc s Hs HI. induction l as [|ev l IH] using rev_ind; intros Hk; [by exists s|].
  destruct IH as (s1 & E1 & I1).
  { intros l1 ev' l2 ce s' -> Hce. apply (Hk l1 ev' (l2 ++ [ev])%list ce s'); [by rewrite <- app_assoc|done]. }
  eexists. split; [by apply run_ev|]. unfold CA.ca_run.
  assert (forall ces s', (forall ce, ce ∈ ces -> ce ∈ ca_part e (wrun W l) ev) -> I s' -> I (fold_left (CA.ca_step x z c cc) ces s')) as Hf.
  { induction ces as [|ce ces IH]; intros s' Hin Hs'; [done|]. cbn. apply IH; [intros; apply Hin; by right|].
    apply (Hk l ev [] ce s'); [done|apply Hin; by left|done]. }
  apply Hf; auto.
Qed.

Lemma ca_part_issue e W ev ds : CA.CIssue ds ∈ ca_part e W ev -> ev = EIssue e ds.
Proof.
  destruct ev as [j m'| | | | | | | |ca ds'|ca n|ca rs' m'| |]; cbn; try (by intros ?%elem_of_nil).
  - destruct (w_mail W !! j) as [[]|]; try (by intros ?%elem_of_nil); try (destruct (String.eqb _ _); [intros H%elem_of_list_singleton; discriminate|by intros ?%elem_of_nil]).
    destruct f; try (by intros ?%elem_of_nil). destruct (String.eqb _ _); [intros H%elem_of_list_singleton; discriminate|by intros ?%elem_of_nil].
  - destruct (String.eqb_spec ca e) as [->|]; [intros [= ->]%elem_of_list_singleton; done|by intros ?%elem_of_nil].
  - destruct (String.eqb _ _); [intros H%elem_of_list_singleton; discriminate|by intros ?%elem_of_nil].
  - destruct (String.eqb _ _); [intros H%elem_of_list_singleton; discriminate|by intros ?%elem_of_nil].
Qed.

Lemma ca_part_head e W ev g : CA.CSth g ∈ ca_part e W ev -> exists i m, ev = EDeliver i m /\ w_mail W !! i = Some (Head e g).
Proof.
  destruct ev as [j m'| | | | | | | |ca ds'|ca n|ca rs' m'| |]; cbn; try (by intros ?%elem_of_nil).
  - destruct (w_mail W !! j) as [[]|] eqn:E; try (by intros ?%elem_of_nil).
    + destruct (String.eqb_spec ca e) as [->|]; [intros [= ->]%elem_of_list_singleton; eauto|by intros ?%elem_of_nil].
    + destruct (String.eqb _ _); [intros H%elem_of_list_singleton; discriminate|by intros ?%elem_of_nil].
    + destruct f; try (by intros ?%elem_of_nil). destruct (String.eqb _ _); [intros H%elem_of_list_singleton; discriminate|by intros ?%elem_of_nil].
  - destruct (String.eqb _ _); [intros H%elem_of_list_singleton; discriminate|by intros ?%elem_of_nil].
  - destruct (String.eqb _ _); [intros H%elem_of_list_singleton; discriminate|by intros ?%elem_of_nil].
  - destruct (String.eqb _ _); [intros H%elem_of_list_singleton; discriminate|by intros ?%elem_of_nil].
Qed.

(** A logger that is there was there before; its pool grows until it ends a period. *)
Lemma mon_event_loggers W mon ev : w_loggers (mon_event z S W mon ev) = w_loggers W.
Proof. unfold mon_event. destruct (sy_monitors S !! mon) as [[c' u]|]; [|done]. destruct (w_mons W !! mon); [|done]. by destruct (Monitor.mstep _ _ _ _) as [[s' o]|]. Qed.

Definition pool_grows (s s' : Logger.lst) : Prop := forall d, d ∈ p_certs (Logger.l_pool s) -> d ∈ p_certs (Logger.l_pool s').
Definition log_ok (s : Logger.lst) : Prop := indexed (Logger.l_pool s).

Lemma log_step W ev lg s' : w_loggers (wstep W ev) !! lg = Some s' ->
  exists s, w_loggers W !! lg = Some s /\ (log_ok s -> log_ok s' /\ (ev <> ELogPeriod lg -> pool_grows s s')).
Proof.
  assert (forall s, w_loggers W !! lg = Some s -> s = s' -> exists s, w_loggers W !! lg = Some s /\ (log_ok s -> log_ok s' /\ (ev <> ELogPeriod lg -> pool_grows s s'))) as same.
  { intros s Hs ->. exists s'. split; [done|]. intros Hok. split; [done|]. by intros _ d. }
  assert (w_loggers W !! lg = Some s' -> exists s, w_loggers W !! lg = Some s /\ (log_ok s -> log_ok s' /\ (ev <> ELogPeriod lg -> pool_grows s s'))) as same'.
  { intros H. by eapply same. }
  destruct ev as [i m|i|y|p|ev|u|l t t1 t2|l|ca ds|ca n|ca rs m|mon ev|cl mon dir flag]; cbn [System.wstep].
  - destruct (w_mail W !! i) as [y|]; [|auto]. destruct y as [l crt|ca g|ca p|mon f url|mon f url r|u g|mon g]; cbn [receive].
    + cbn. destruct (w_loggers W !! l) as [s|] eqn:E; [|auto]. cbn. destruct (decide (l = lg)) as [->|Hn].
      * rewrite lookup_insert. intros [= <-]. exists s. split; [done|]. intros Hok. split; [by apply indexed_add|].
        intros _ d Hd. by apply pool_add_mono.
      * rewrite lookup_insert_ne by done. auto.
    + cbn. destruct (sy_cas S !! ca) as [[? ?]|]; [|auto]. destruct (w_cas W !! ca); auto.
    + cbn. destruct (w_cas W !! ca); auto.
    + destruct f; cbn.
      * destruct (w_loggers W !! url) as [s|] eqn:E; [|auto]. unfold Logger.request_sth. cbn. destruct (decide (url = lg)) as [->|Hn].
        -- rewrite lookup_insert. intros [= <-]. exists s. split; [done|]. intros Hok. split; [done|]. by intros _ d.
        -- rewrite lookup_insert_ne by done. auto.
      * destruct (w_cas W !! url) as [su|]; [|auto]. destruct (CA.request_rev su m). auto.
      * auto.
    + rewrite mon_event_loggers. auto.
    + auto.
    + rewrite mon_event_loggers. auto.
  - destruct (w_mail W !! i); auto.
  - auto.
  - auto.
  - destruct (inner_event ev); auto.
  - auto.
  - destruct (sy_loggers S !! l) as [lc|]; [|auto]. destruct (w_loggers W !! l) as [s|] eqn:E; [|auto].
    destruct (Logger.publish _ _ _ _ _ _) as [[s1 ms] ok] eqn:Ep. cbn. destruct (decide (l = lg)) as [->|Hn].
    + destruct ok; [|by rewrite lookup_delete]. rewrite lookup_insert. intros [= <-]. exists s. split; [done|].
      apply LoggerFacts.publish_fields in Ep as (Ep & _). unfold log_ok, pool_grows. rewrite Ep. auto.
    + destruct ok; [rewrite lookup_insert_ne by done|rewrite lookup_delete_ne by done]; auto.
  - destruct (w_loggers W !! l) as [s|] eqn:E; [|auto]. cbn. destruct (decide (l = lg)) as [->|Hn].
    + rewrite lookup_insert. intros [= <-]. exists s. split; [done|]. intros Hok. split; [apply indexed_new|]. done.
    + rewrite lookup_insert_ne by done. auto.
  - destruct (sy_cas S !! ca) as [[? ?]|]; [|auto]. destruct (w_cas W !! ca); [|auto]. destruct (CA.issue _ _ _ _) as [[? ?] ?]. auto.
  - unfold ca_event. destruct (sy_cas S !! ca) as [[? ?]|]; [|auto]. destruct (w_cas W !! ca); auto.
  - unfold ca_event. destruct (sy_cas S !! ca) as [[? ?]|]; [|auto]. destruct (w_cas W !! ca); auto.
  - destruct (own_event ev); [|auto]. rewrite mon_event_loggers. auto.
  - destruct (sy_clients S !! cl); [|auto]. destruct (w_clients W !! cl); [|auto]. destruct (w_mons W !! mon); [|auto].
    destruct (_ ≫= _); [|auto]. destruct (Client.handle_update _ _ _ _ _). auto.
Qed.

Lemma log_run l : forall W lg s', w_loggers (wrun W l) !! lg = Some s' ->
  exists s, w_loggers W !! lg = Some s /\ (log_ok s -> log_ok s' /\ (ELogPeriod lg ∉ l -> pool_grows s s')).
Proof.
  induction l as [|ev l IH]; intros W lg s' H.
  - exists s'. split; [done|]. intros ?. split; [done|]. by intros _ d.
  - destruct (IH (wstep W ev) lg s' H) as (s1 & H1 & K1). destruct (log_step W ev lg s1 H1) as (s & Hs & K). exists s. split; [done|].
    intros Hok. destruct (K Hok) as [O1 G1]. destruct (K1 O1) as [O2 G2]. split; [done|].
    intros Hn d Hd. apply G2; [intros ?; apply Hn; by right|]. apply G1; [intros ->; apply Hn; by left|done].
Qed.

Lemma log_init a b d lt ct lg s : w_loggers (world_init x S a b d lt ct) !! lg = Some s -> log_ok s.
Proof. cbn. rewrite map_lookup_imap. destruct (sy_loggers S !! lg); [|done]. cbn. intros [= <-]. apply indexed_new. Qed.

Lemma ca_init_state a b d lt ct ca c cc : sy_cas S !! ca = Some (c, cc) ->
  exists ty k d1 d2, w_cas (world_init x S a b d lt ct) !! ca = Some (CA.ca_init x c ty k d1 d2).
Proof. intros H. cbn. rewrite map_lookup_imap, H. cbn. destruct (ct ca) as [[[ty k] d1] d2]. by exists ty, k, d1, d2. Qed.

Lemma ca_reach a b d lt ct l ca c cc s : sy_cas S !! ca = Some (c, cc) -> w_cas (wrun (world_init x S a b d lt ct) l) !! ca = Some s ->
  CAPoiFacts.pool_ok s /\ c_subject_cn (CA.a_root s) = CA.cac_signer c.
Proof.
  intros Hc Hs. destruct (ca_init_state a b d lt ct ca c cc Hc) as (ty & k & d1 & d2 & H0).
  destruct (ca_history z x S ca c cc Hc _ _ l H0) as (ces & E & _). rewrite E in Hs. injection Hs as <-. split.
  - apply CAPoiFacts.run_pool, CAPoiFacts.init_pool.
  - destruct (CARidFacts.run_counter x z c cc ces (CA.ca_init x c ty k d1 d2)) as [_ ->]. done.
Qed.

Lemma head_in_mail W lg lc s t t1 t2 s' ms : sy_loggers S !! lg = Some lc -> w_loggers W !! lg = Some s ->
  Logger.publish lc (λ ca, bool_decide (is_Some (w_cas W !! ca))) s t t1 t2 = (s', ms, true) ->
  w_loggers (wstep W (EPublish lg t t1 t2)) !! lg = Some s' /\ w_cas (wstep W (EPublish lg t t1 t2)) = w_cas W /\
  forall y, y ∈ ms -> log_mail y ∈ w_mail (wstep W (EPublish lg t t1 t2)).
Proof.
  intros Hc Hs Hp. cbn [System.wstep]. rewrite Hc, Hs, Hp. cbn. rewrite lookup_insert. split; [done|]. split; [done|].
  intros y Hy. apply elem_of_app. right. apply elem_of_list_fmap. by exists y.
Qed.

(** Publishing, with the object spelt out. *)
Lemma published (lc : Logger.lconf P) up s t t1 t2 : log_ok s -> 2 <= length (get_certs (Logger.l_pool s)) -> ski_unique (get_certs (Logger.l_pool s)) ->
  (forall d, d ∈ get_certs (Logger.l_pool s) -> c_ski d <> "" -> up (c_issuer_cn d) = true) ->
  exists s' ms root size period, let g := Logger.sth_object lc t1 root size period in Logger.publish lc up s t t1 t2 = (s', ms, true) /\
    Logger.l_sth s' !! pad2 (Datatypes.S (Logger.n_minute t)) = Some g /\
    (forall ca, ca ∈ Logger.lc_cas lc -> Logger.SthTo ca g ∈ ms) /\
    forall d, d ∈ get_certs (Logger.l_pool s) -> c_ski d <> "" -> exists p, Logger.PoiTo (c_issuer_cn d) (mkpoi (Some p) (c_ski d) (c_issuer_cn d) (Logger.lc_signer lc)) ∈ ms /\
      Merkle.verify_proof (h_sha256 P) (c_subject d) (Some p) root = true.
Proof.
  intros HI Hl Hd Hu. destruct (LoggerFacts.publish_spec lc up s t t1 t2 Hl) as (s1 & ms1 & ok & tr & Hp & Ht & Hst & _).
  destruct (LoggerFacts.publish_proofs lc up s t t1 t2 HI Hl Hd Hu) as (s' & ms & g & root & Hp' & Hg & Hr & Hh & Hx).
  rewrite Hp in Hp'. injection Hp' as -> -> ->. cbn zeta in Hst. rewrite Hst, lookup_insert in Hg. injection Hg as <-.
  rewrite LoggerFacts.root_readable in Hr. injection Hr as <-.
  eexists s', ms, (Merkle.mt_root tr), _, _. cbn zeta. split; [done|]. split; [rewrite Hst; apply lookup_insert|]. done.
Qed.

Theorem issued_included a b d0 lt ct ca c cc lg lc pk : let W0 := world_init x S a b d0 lt ct in
  sy_cas S !! ca = Some (c, cc) -> CA.cac_signer c = ca -> sy_loggers S !! lg = Some lc -> lg ∈ CA.cac_loggers c -> ca ∈ Logger.lc_cas lc ->
  cc_sign_scheme cc = "rsa" -> cc_rsa_pubs cc !! Logger.lc_signer lc = Some pk -> Logger.lc_signer lc <> "" -> plain_id (Logger.lc_signer lc) = true ->
  (forall m, rsa_check pk m (rsa_sign (Logger.lc_key lc) m) = true) ->
  std_ok x -> (forall m n, CA.xl_name x m = CA.xl_name x n -> m = n) -> (forall m, h_sha256 P m <> "") ->
  forall l0 ds s0 crt, w_cas (wrun W0 l0) !! ca = Some s0 -> NoDup (map (λ d, h_sha256 P (CA.d_pub d)) ds) ->
  crt ∈ CA.ca_issued x c s0 (CA.CIssue ds) ->
  (forall d, d ∈ get_certs (CA.a_pool s0) -> c_subject d <> c_subject crt /\ c_ski d <> c_ski crt) ->
  let la := (l0 ++ [EIssue ca ds])%list in
  Precert lg crt ∈ w_mail (wrun W0 la) /\
  forall l1 i m l2 t t1 t2 sl, let lb := (la ++ l1)%list in let lp := (lb ++ EDeliver i m :: l2)%list in
  w_mail (wrun W0 lb) !! i = Some (Precert lg crt) ->
  (forall s d, w_loggers (wrun W0 lb) !! lg = Some s -> d ∈ get_certs (Logger.l_pool s) -> c_subject d <> c_subject crt) ->
  ELogPeriod lg ∉ l2 -> w_loggers (wrun W0 lp) !! lg = Some sl -> 2 <= length (get_certs (Logger.l_pool sl)) -> ski_unique (get_certs (Logger.l_pool sl)) ->
  (forall d, d ∈ get_certs (Logger.l_pool sl) -> c_ski d <> "" -> is_Some (w_cas (wrun W0 lp) !! c_issuer_cn d)) ->
  let Wp := wrun W0 (lp ++ [EPublish lg t t1 t2]) in
  exists g p sl', w_loggers Wp !! lg = Some sl' /\ Logger.l_sth sl' !! pad2 (Datatypes.S (Logger.n_minute t)) = Some g /\ g_type g = STH_INIT /\ g_signer g = Logger.lc_signer lc /\
    (forall cc', cc_sign_scheme cc' = "rsa" -> cc_rsa_pubs cc' !! Logger.lc_signer lc = Some pk -> verify cc' g = Accept) /\
    poi_ski p = c_ski crt /\ poi_logger p = Logger.lc_signer lc /\ Head ca g ∈ w_mail Wp /\ Proof_ ca p ∈ w_mail Wp /\
    forall l3 i1 m1 l4 i2 m2, let lh := (l3 ++ EDeliver i1 m1 :: l4)%list in
    (forall rs m', ECaPeriod ca rs m' ∉ (l1 ++ l2 ++ l3 ++ l4)%list) ->
    w_mail (wrun Wp l3) !! i1 = Some (Head ca g) -> w_mail (wrun Wp lh) !! i2 = Some (Proof_ ca p) ->
    (forall ds', EIssue ca ds' ∉ l4) ->
    (forall g', arrives z x S (wrun Wp (l3 ++ [EDeliver i1 m1])) l4 (Head ca g') -> g_signer g' = Logger.lc_signer lc -> g' = g) ->
    exists s crt1, w_cas (wrun Wp lh) !! ca = Some s /\ get_by_ski (CA.a_pool s) (c_ski crt) = Some crt1 /\ same_subject crt1 crt /\
      ((forall j, j ∈ SpecClient.relied_on crt1 -> g_signer (li_sth j) <> Logger.lc_signer lc) ->
       ext_ok (mkctng (cert_rid crt1) (SpecClient.relied_on crt1 ++ [mkloginfo g p])) ->
       exists s' crt2 final, w_cas (wrun Wp (lh ++ [EDeliver i2 m2])) !! ca = Some s' /\ get_by_ski (CA.a_pool s') (c_ski crt) = Some crt2 /\
         SpecClient.relied_on crt2 = (SpecClient.relied_on crt1 ++ [mkloginfo g p])%list /\
         final ∈ CA.sign_all x c s' /\ same_subject final crt /\ c_issuer_cn final = ca /\ cert_rid final = cert_rid crt1 /\
         SpecClient.relied_on final = SpecClient.relied_on crt2 /\ proves_inclusion (P := P) final (mkloginfo g p)).
Proof.
  intros W0 Hc Hsig Hlg Hto Hback Hsch Hpk Hne Hpl Hok Hstd Hname Hh l0 ds s0 crt Hs0 Hnd Hin Hfresh la.
  pose proof (ca_reach a b d0 lt ct l0 ca c cc s0 Hc Hs0) as [Hp0 Hroot].
  cbn [CA.ca_issued CA.issue fst snd] in Hin.
  destruct (CARidFacts.generated_shape x c _ _ _ _ _ _ Hin) as (Gi & Ge & Gk & Gs).
  assert (c_ski crt <> "") as Hk by (rewrite Gk; apply Hh).
  assert (c_issuer_cn crt = ca) as Hiss by (rewrite Gi, Hroot; exact Hsig).
  (* the CA after issuing *)
  set (s1 := fst (fst (CA.issue x c s0 ds))).
  assert (w_cas (wrun W0 la) !! ca = Some s1) as Hs1.
  { unfold la. rewrite wrun_app. cbn [fold_left System.wrun System.wstep]. rewrite Hc, Hs0. subst s1. destruct (CA.issue x c s0 ds) as [[s' ?] ms]. cbn. apply lookup_insert. }
  assert (get_by_ski (CA.a_pool s1) (c_ski crt) = Some (precert_of crt)) as Hg1.
  { subst s1. cbn [CA.issue fst CA.a_pool CA.set_a_pool]. change (c_ski crt) with (c_ski (precert_of crt)). apply get_new; try done.
    - apply Hp0.
    - by apply elem_of_list_fmap_1.
    - intros y (f & -> & Hf)%elem_of_list_fmap Hor. f_equal. eapply gen_distinct; eauto. }
  split.
  { unfold la. rewrite wrun_app. cbn [fold_left System.wrun System.wstep]. rewrite Hc, Hs0. cbn [CA.issue send set_cas w_mail set_mail]. apply elem_of_app. right.
    apply elem_of_list_fmap. exists (CA.PrecertTo lg crt). split; [done|]. apply elem_of_list_In, in_concat. eexists. split.
    - apply in_map_iff. exists crt. split; [reflexivity|by apply elem_of_list_In].
    - apply in_map_iff. exists lg. split; [done|by apply elem_of_list_In]. }
  intros l1 i m l2 t t1 t2 sl lb lp Hmail Hnew Hnp Hsl Hlen Huniq Hups Wp.
  (* the logger *)
  assert (wrun W0 lp = wrun (wstep (wrun W0 lb) (EDeliver i m)) l2) as Elp by (unfold lp; by rewrite wrun_app).
  rewrite Elp in Hsl. destruct (log_run _ _ _ _ Hsl) as (sd & Hsd & Kd). 
  destruct (log_step _ _ _ _ Hsd) as (sb & Hsb & Kb).
  destruct (log_run lb W0 lg sb Hsb) as (si & Hsi & Ki).
  destruct (Ki (log_init _ _ _ _ _ _ _ Hsi)) as [Hokb _]. destruct (Kb Hokb) as [Hokd _]. destruct (Kd Hokd) as [Hokl Hgrow].
  assert (tbs_certificate crt ∈ p_certs (Logger.l_pool sl)) as Hthere.
  { apply Hgrow; [done|]. cbn [System.wstep] in Hsd. rewrite Hmail in Hsd. cbn [receive] in Hsd. cbn [w_loggers set_mail] in Hsd. rewrite Hsb in Hsd.
    cbn in Hsd. rewrite lookup_insert in Hsd. injection Hsd as <-. cbn. apply pool_add_in; [done|]. intros y Hy. cbn. by apply (Hnew sb). }
  rewrite <- Elp in Hsl.
  destruct (published lc (λ ca, bool_decide (is_Some (w_cas (wrun W0 lp) !! ca))) sl t t1 t2 Hokl Hlen Huniq) as (sl' & ms & root & size & period & Hpub & Hst & Hheads & Hproofs).
  { intros y Hy Hky. apply bool_decide_eq_true. by apply Hups. }
  destruct (head_in_mail _ _ _ _ _ _ _ _ _ Hlg Hsl Hpub) as (Hl' & Hcas' & Hms).
  assert (wstep (wrun W0 lp) (EPublish lg t t1 t2) = Wp) as EWp by (unfold Wp; by rewrite wrun_app). rewrite EWp in Hl', Hcas', Hms.
  destruct (Hproofs _ Hthere Hk) as (q & Hq & Hv). cbn [tbs_certificate c_issuer_cn c_ski c_subject] in Hq, Hv. rewrite Hiss in Hq.
  set (g := Logger.sth_object lc t1 root size period) in *.
  set (p := mkpoi (Some q) (c_ski crt) ca (Logger.lc_signer lc)) in *.
  assert (forall cc', cc_sign_scheme cc' = "rsa" -> cc_rsa_pubs cc' !! Logger.lc_signer lc = Some pk -> verify cc' g = Accept) as Hver
    by (intros cc' ? ?; eapply LoggerFacts.sth_verifies; eauto).
  exists g, p, sl'. split; [done|]. split; [done|]. split; [done|]. split; [done|]. split; [exact Hver|]. split; [done|]. split; [done|].
  split; [apply (Hms (Logger.SthTo ca g)); by apply Hheads|]. split; [by apply (Hms (Logger.PoiTo ca p))|].
  intros l3 i1 m1 l4 i2 m2 lh Hnper Hm1 Hm2 Hniss Hother.
  (* the CA until the head arrives *)
  set (I1 := λ s, CAPoiFacts.pool_ok s /\ exists y, get_by_ski (CA.a_pool s) (c_ski crt) = Some y /\ same_subject y crt /\ c_extra y = []).
  assert (forall s e, I1 s -> (forall rs m', e <> CA.CPeriod rs m') -> I1 (CA.ca_step x z c cc s e)) as Hstep.
  { intros s e [Hp (y & Hy & Hsy & Hey)] He. split; [by apply CAPoiFacts.step_pool|]. by eapply found_step. }
  assert (I1 s1) as HI1.
  { split; [|by exists (precert_of crt)]. eapply (ca_reach a b d0 lt ct la); eauto. }
  set (lq := (l1 ++ EDeliver i m :: l2 ++ EPublish lg t t1 t2 :: l3)%list).
  assert (wrun Wp l3 = wrun (wrun W0 la) lq) as Eq.
  { unfold Wp, lp, lb, lq. rewrite <- !wrun_app. f_equal. rewrite <- !app_assoc. done. }
  destruct (ca_keeps ca c cc I1 (wrun W0 la) lq Hc s1 Hs1 HI1) as (s2 & Hs2 & HI2).
  { intros k1 ev k2 ce s' El Hce HI. apply Hstep; [done|]. intros rs m' ->. apply ca_part_period in Hce as ->.
    apply (Hnper rs m'). assert (ECaPeriod ca rs m' ∈ lq) as Hx by (rewrite El; apply elem_of_app; right; by left).
    unfold lq in Hx. rewrite !elem_of_app, !elem_of_cons, !elem_of_app, !elem_of_cons in Hx. rewrite !elem_of_app. naive_solver. }
  rewrite <- Eq in Hs2.
  (* the head arrives *)
  set (s3 := CA.ca_step x z c cc s2 (CA.CSth g)).
  assert (w_cas (wrun Wp (l3 ++ [EDeliver i1 m1])) !! ca = Some s3) as Hs3.
  { erewrite run_ev; [|exact Hc|exact Hs2]. cbn [ca_part]. rewrite Hm1, String.eqb_refl. done. }
  assert (I1 s3) as HI3 by (by apply Hstep).
  assert (CA.a_sths s3 !! Logger.lc_signer lc = Some g) as Hh3.
  { subst s3. cbn [CA.ca_step]. unfold CA.receive_sth. rewrite (Hver cc Hsch Hpk). cbn. change (g_signer g) with (Logger.lc_signer lc). apply lookup_insert. }
  destruct (ca_keeps ca c cc (λ s, I1 s /\ CA.a_sths s !! Logger.lc_signer lc = Some g) _ l4 Hc s3 Hs3 (conj HI3 Hh3)) as (s4 & Hs4 & HI4 & Hh4).
  { intros k1 ev k2 ce s' El Hce [HI Hh']. 
    assert (forall rs m', ce <> CA.CPeriod rs m') as Hcp.
    { intros rs m' ->. apply ca_part_period in Hce as ->. apply (Hnper rs m'). rewrite El, !elem_of_app, elem_of_cons. auto 10. }
    split; [by apply Hstep|]. apply head_step; [|done| |done].
    - intros ds' ->. apply ca_part_issue in Hce as ->. apply (Hniss ds'). rewrite El. apply elem_of_app. right. by left.
    - intros g' -> Hg'. apply ca_part_head in Hce as (j & mj & -> & Hj). apply Hother; [|done]. by exists k1, j, mj, k2. }
  assert (wrun (wrun Wp (l3 ++ [EDeliver i1 m1])) l4 = wrun Wp lh) as Elh.
  { unfold lh. rewrite <- wrun_app. f_equal. rewrite <- app_assoc. done. }
  rewrite Elh in Hs4. destruct HI4 as [Hp4 (crt1 & Hg4 & Hsame & Hextra)].
  exists s4, crt1. split; [done|]. split; [done|]. split; [done|]. intros Hnl Hext.
  set (i0 := mkloginfo g p) in *.
  assert (w_cas (wrun Wp (lh ++ [EDeliver i2 m2])) !! ca = Some (CA.receive_poi s4 p)) as Hs5.
  { erewrite run_ev; [|exact Hc|exact Hs4]. cbn [ca_part]. rewrite Hm2, String.eqb_refl. done. }
  set (crt2 := update_ctng crt1 i0).
  assert (get_by_ski (CA.a_pool (CA.receive_poi s4 p)) (c_ski crt) = Some crt2) as Hg5.
  { unfold CA.receive_poi. cbn [p poi_ski poi_logger]. rewrite Hg4. unfold CA.obj_at, Logger.obj_at. rewrite Hh4. cbn [default CA.a_pool CA.set_a_pool].
    fold i0. destruct (CAPoiFacts.update_names crt1 i0) as [N1 N2]. erewrite CAPoiFacts.get_update; [|apply Hp4|exact Hg4|exact N2|exact N1].
    by rewrite decide_True. }
  assert (carries crt1) as Hcar. { destruct Hp4 as [_ HC]. rewrite Forall_forall in HC. apply HC. by eapply CARidFacts.get_in. }
  assert (parse_ctng crt2 = mkctng (x_rid (parse_ctng crt1)) (x_infos (parse_ctng crt1) ++ [i0])) as Epar.
  { apply update_new; [done| |exact Hext]. intros (j & Hj & Ej). by apply (Hnl j). }
  set (final := CA.sign_certificate x (CA.cac_key c) (update_for_signing crt2) (CA.a_root (CA.receive_poi s4 p)) (c_pub (update_for_signing crt2))).
  assert (same_subject crt2 crt) as Hsame2 by (by apply for_same_update).
  assert (c_extra crt2 = []) as Hextra2 by (unfold crt2; by rewrite extra_update).
  assert (parse_ctng final = parse_ctng crt2) as Epf.
  { unfold final. erewrite (CARidFacts.parse_signed x Hstd); [|cbn [update_for_signing set_extra c_extra]; rewrite Hextra2; reflexivity].
    apply decode_encode. rewrite Epar. exact Hext. }
  assert (same_subject final crt) as Hsf.
  { destruct Hsame2 as (S1 & S2 & S3 & S4). unfold same_subject, final.
    cbn [CA.sign_certificate c_subject c_subject_cn c_pub c_ski update_for_signing set_extra]. unfold CA.name_of. cbn [c_subject c_subject_cn update_for_signing set_extra].
    rewrite S1, S2, S3, S4. split_and!; try done.
    - destruct (is_empty (c_subject crt)) eqn:Ee; [|done]. by rewrite Gs.
    - destruct (is_empty (c_ski crt)) eqn:Ee; [|done]. by apply is_empty_eq in Ee. }
  exists (CA.receive_poi s4 p), crt2, final. split; [done|]. split; [done|].
  split; [unfold SpecClient.relied_on; by rewrite Epar|].
  split. { unfold CA.sign_all. apply elem_of_list_fmap. exists crt2. split; [done|]. by eapply CARidFacts.get_in. }
  split; [done|]. split. { destruct (ca_reach a b d0 lt ct (lp ++ [EPublish lg t t1 t2] ++ lh ++ [EDeliver i2 m2]) ca c cc (CA.receive_poi s4 p) Hc) as [_ Hr]; [|by rewrite <- Hsig].
    rewrite <- Hs5. unfold Wp. rewrite <- wrun_app. by rewrite <- app_assoc. }
  split; [unfold cert_rid; by rewrite Epf, Epar|]. split; [unfold SpecClient.relied_on; by rewrite Epf|].
  unfold proves_inclusion. exists (Logger.tree_head lc t1 root size), q. cbn [i0 li_sth li_poi]. split.
  - unfold Client.head_of, g, Logger.sth_object. cbn [g_p1]. by rewrite ClientFacts.hex_prefix_encode, WireFacts.sth_roundtrip.
  - split; [done|]. cbn [Logger.tree_head sth_root]. rewrite ClientFacts.hex_prefix_encode. destruct Hsf as (-> & _). exact Hv.
Qed.
End sys.
