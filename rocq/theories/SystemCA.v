(** The whole system: a normal CA whose queries come in time and whose revocations the monitors have recorded is never convicted. *)
From Verif Require Import Bytes Hex Json Types Crypto Verify Bitset Cert CertPool CTngExt Clock Revocation Prog Gossiper Network Overlap System SpecVerify SpecGossiper SpecCodec SpecCA SpecSystem SpecSystemCA CodecFacts BitsetFacts RevocationFacts CAFacts SystemFacts SystemHonest.
From Verif Require Logger CA Monitor Client.
From Coq Require Import Lia.
Open Scope string_scope.

Section honest.
Context {P : prims} (z : gzip) (x : CA.x509lib) (S : sysconf P) (a b d : string) (lt : string -> Z * Z) (ct : string -> Z * Z * CA.draw * CA.draw).
Notation W0 := (world_init x S a b d lt ct).
Notation run := (wrun z x S W0).
Context (e : string) (c : CA.caconf P) (l : list wevent) (Hz : gzip_ok z).
Context (Hid : ca_identity S e c) (Hty : (ct e).1.1.1 = 0%Z).
Context (Hout : outsiders_quiet e l) (Honce : NoDup (period_ends e l)) (Hidx : revokes_ok e l) (Htime : ca_timely z x S W0 Datatypes.S e l).
Context (Hrec : records_right z x S W0 e l).

Definition vector_of (s : CA.cast) (rs : list N) : crv := if CA.a_fresh s then crv_mass_revoke (CA.a_crv s) rs else CA.a_crv s.

(** The vector of [e] after the history [l1]. *)
Definition vec_ok (l1 : list wevent) (s : CA.cast) : Prop :=
  cur_ok (v_cur (CA.a_crv s)) /\
  ((CA.a_fresh s = true /\ v_pre (CA.a_crv s) = Some (bs_new crv_size)) \/
   (CA.a_fresh s = false /\ v_pre (CA.a_crv s) = None /\ exists rs m, ECaPeriod e rs m ∈ l1)).

(** [g] is the object [e] made for the next minute at a point of the history [l1]. *)
Definition made (l1 : list wevent) (k : string) (g : gobj) : Prop :=
  exists la rs m lb s, l1 = (la ++ ECaPeriod e rs m :: lb)%list /\ w_cas (run la) !! e = Some s /\ vec_ok la s /\
    k = unpadded (Datatypes.S m) /\
    g = generate_revocation z (CA.cac_key c) (CA.cac_self c) (CA.cac_signer c) (vector_of s rs) (CA.a_online s) k false.

Lemma made_more l1 l2 k g : made l1 k g -> made (l1 ++ l2) k g.
Proof using.
  clear. intros (la & rs & m & lb & s & -> & H). exists la, rs, m, (lb ++ l2)%list, s.
  split; [|done]. by rewrite <- app_assoc.
Qed.

Lemma made_unique g h k k' : made l k g -> made l k' h -> g_period g = g_period h -> g = h.
Proof using Honce.
  intros (la & rs & m & lb & s & E1 & S1 & _ & -> & ->) (la' & rs' & m' & lb' & s' & E2 & S2 & _ & -> & ->) Hp. cbn in Hp.
  assert (m = m') as Hm by (apply itoa_inj in Hp; lia).
  assert (la = la' /\ ECaPeriod e rs m = ECaPeriod e rs' m') as [Ea Ex].
  { eapply omap_split; [exact E1|exact E2| | |exact Honce]; cbn; rewrite String.eqb_refl; [done|by f_equal]. }
  injection Ex as <- <-. subst la'. rewrite S1 in S2. by injection S2 as <-.
Qed.

Definition mail_good (l1 : list wevent) (y : mail) : Prop :=
  match y with
  | Query mon f url => url = e -> f = Rev
  | Response mon f url r =>
      (url = e -> f = Rev /\ exists g k, r = Some g /\ made l1 k g) /\
      (forall g, r = Some g -> g_p0 g = e -> exists k, made l1 k g)
  | _ => True
  end.

Definition mine (l1 : list wevent) (s : CA.cast) : Prop :=
  CA.a_type s = 0%Z /\ vec_ok l1 s /\ (forall k g, CA.a_rev s !! k = Some g -> made l1 k g) /\
  (forall rs m, ECaPeriod e rs m ∈ l1 -> is_Some (CA.a_rev s !! unpadded (Datatypes.S m))).

Definition HI (l1 : list wevent) (W : world) : Prop :=
  (forall u s, w_loggers W !! u = Some s -> other_logger e s) /\
  (forall ca s, w_cas W !! ca = Some s -> (ca <> e -> other_ca e s) /\ (ca = e -> mine l1 s)) /\
  is_Some (w_cas W !! e) /\
  (forall y, y ∈ w_mail W -> mail_good l1 y).

Lemma mail_good_more l1 l2 y : mail_good l1 y -> mail_good (l1 ++ l2) y.
Proof using.
  clear. destruct y as [| | | |mon f url r| |]; cbn; auto. intros [H1 H2]. split.
  - intros E. destruct (H1 E) as [Hf (g & k & -> & Hg)]. split; [done|]. exists g, k. split; [done|]. by apply made_more.
  - intros g Hg Hp. destruct (H2 g Hg Hp) as [k Hk]. exists k. by apply made_more.
Qed.

Lemma mine_more l1 ev s s' : (forall rs m, ev <> ECaPeriod e rs m) ->
  CA.a_type s' = CA.a_type s -> CA.a_rev s' = CA.a_rev s -> CA.a_fresh s' = CA.a_fresh s -> v_pre (CA.a_crv s') = v_pre (CA.a_crv s) ->
  cur_ok (v_cur (CA.a_crv s')) -> mine l1 s -> mine (l1 ++ [ev]) s'.
Proof using.
  clear. intros Hev E1 E2 E3 E4 Hc (A1 & [A2 A3] & A4 & A5). split_and!; [congruence|split; [done|]| |].
  - rewrite E3, E4. destruct A3 as [A3|(? & ? & rs & m & Hin)]; [by left|right]. split_and!; auto. exists rs, m. apply elem_of_app. by left.
  - intros k g. rewrite E2. intros Hk. by apply made_more, A4.
  - intros rs m [Hin|Hin]%elem_of_app; rewrite E2; [by eapply A5|]. apply elem_of_list_singleton in Hin. by edestruct Hev.
Qed.
Lemma mine_same l1 ev s : (forall rs m, ev <> ECaPeriod e rs m) -> mine l1 s -> mine (l1 ++ [ev]) s.
Proof using. clear. intros Hev H. pose proof H as (_ & [Hc _] & _). by eapply mine_more. Qed.

(** Most events leave the CAs alone and add harmless mail. *)
Lemma HI_keep l1 ev W W' : HI l1 W -> (forall rs m, ev <> ECaPeriod e rs m) ->
  (forall u s, w_loggers W' !! u = Some s -> other_logger e s) -> w_cas W' = w_cas W ->
  (forall y, y ∈ w_mail W' -> y ∈ w_mail W \/ mail_good (l1 ++ [ev]) y) -> HI (l1 ++ [ev]) W'.
Proof using.
  clear. intros (H1 & H2 & H2' & H3) Hev Hl El Hm. split_and!; auto.
  - rewrite El. intros ca s Hs. destruct (H2 ca s Hs) as [Ho He]. split; [done|]. intros Eu. apply mine_same; auto.
  - by rewrite El.
  - intros y Hy. destruct (Hm y Hy) as [Hy'|]; [|done]. by apply mail_good_more, H3.
Qed.

(** A CA is replaced. *)
Lemma HI_ca l1 ev W W' ca s' (ms : list mail) : HI l1 W -> w_loggers W' = w_loggers W -> w_cas W' = <[ca := s']> (w_cas W) ->
  (forall y, y ∈ w_mail W' -> y ∈ w_mail W \/ y ∈ ms) ->
  (ca <> e -> other_ca e s') -> (forall rs m, ev <> ECaPeriod e rs m) \/ ca = e -> (ca = e -> mine (l1 ++ [ev]) s') ->
  (forall y, y ∈ ms -> mail_good (l1 ++ [ev]) y) -> HI (l1 ++ [ev]) W'.
Proof using.
  clear. intros (H1 & H2 & H2' & H3) El Ec Em Ho Hev He Hm. split_and!.
  - by rewrite El.
  - rewrite Ec. intros v sv. rewrite lookup_insert_Some. intros [[<- <-]|[Hv Hs]]; [done|].
    destruct (H2 v sv Hs) as [B1 B2]. split; [done|]. intros Ee. destruct Hev as [Hev| ->]; [|by subst v]. apply mine_same; auto.
  - rewrite Ec. destruct (decide (ca = e)) as [->|Hn]; [rewrite lookup_insert; eauto|by rewrite lookup_insert_ne].
  - intros y Hy. destruct (Em y Hy) as [Hy'|Hy']; [by apply mail_good_more, H3|by apply Hm].
Qed.

Lemma mon_mail_good l1 W mon ev :
  (forall y, y ∈ w_mail (mon_event z S W mon ev) -> y ∈ w_mail W \/ mail_good l1 y).
Proof using Hid.
  intros y. unfold mon_event. destruct (sy_monitors S !! mon) as [[cm u]|] eqn:Ec; [|by left].
  destruct (w_mons W !! mon) as [s|]; [|by left]. destruct (Monitor.mstep z cm s ev) as [[s' o]|] eqn:Em; [|by left].
  cbn. intros [Hy|Hy]%elem_of_app; [by left|right]. apply elem_of_list_fmap in Hy as (w & -> & Hw).
  destruct w as [g|f' url]; [done|]. cbn. intros ->.
  assert (Monitor.MAsk f' e ∈ o -> f' = Rev \/ e ∈ Monitor.mc_loggers cm) as Ha.
  { assert (forall o', o' = o -> Monitor.MAsk f' e ∉ o' -> Monitor.MAsk f' e ∈ o -> f' = Rev \/ e ∈ Monitor.mc_loggers cm) as Hno by (intros ? ->; done).
    assert (forall g, Monitor.MAsk f' e ∉ (Monitor.process_valid z cm s g).2) as Hpv.
    { intros g. unfold Monitor.process_valid. destruct (obj_kind g) as [[[]| |]| |]; cbn;
        try (destruct (Monitor.is_logger _ _)); try (destruct (Monitor.is_authority _ _)); cbn;
        rewrite ?elem_of_list_singleton; try done; apply not_elem_of_nil. }
    destruct ev as [g|m|m|f2 url r|n m stamp| |m|m]; cbn in Em.
    - injection Em as Em. eapply Hno; [done|]. replace o with (Monitor.handle_gossip z cm s g).2 by (by rewrite Em).
      unfold Monitor.handle_gossip. destruct (Monitor.is_duplicate s g); [apply not_elem_of_nil|].
      destruct (obj_kind g) as [[[]| |]| |]; try apply Hpv; apply not_elem_of_nil.
    - injection Em as _ <-. unfold Monitor.query. intros Hin. apply elem_of_list_fmap in Hin as (v & [= -> <-] & Hv). right.
      apply elem_of_list_In, List.filter_In in Hv as [Hv _]. by apply elem_of_list_In.
    - injection Em as _ <-. unfold Monitor.query. intros Hin. apply elem_of_list_fmap in Hin as (v & [= -> _] & _). by left.
    - eapply Hno; [done|]. unfold Monitor.handle_reply in Em.
      destruct r as [g|]; [|injection Em as _ <-; apply not_elem_of_nil].
      assert (Some (Monitor.process_valid z cm s g) = Some (s', o) -> Monitor.MAsk f' e ∉ o) as Hpv'.
      { intros [= E]. replace o with (Monitor.process_valid z cm s g).2 by (by rewrite E). apply Hpv. }
      destruct (verify _ g); [|injection Em as _ <-; apply not_elem_of_nil|done].
      destruct f2; [by apply Hpv'| |by apply Hpv'].
      destruct (Monitor.check_rev z cm s g); [by apply Hpv'|injection Em as _ <-; apply not_elem_of_nil|done].
    - eapply Hno; [done|]. destruct (Monitor.m_timers s !! n) as [t|]; [|injection Em as _ <-; apply not_elem_of_nil].
      destruct t as [ca dd|ee ff]; cbn in Em; injection Em as _ <-; [apply not_elem_of_nil|].
      unfold Monitor.accuse_timer, Monitor.accuse. destruct (_ && _); [|apply not_elem_of_nil].
      destruct (Monitor.has_pom _ _ _); [apply not_elem_of_nil|]. by rewrite elem_of_list_singleton.
    - injection Em as _ <-. eapply Hno; [done|apply not_elem_of_nil].
    - injection Em as _ <-. eapply Hno; [done|apply not_elem_of_nil].
    - injection Em as _ <-. eapply Hno; [done|apply not_elem_of_nil]. }
  destruct (Ha Hw) as [|Hin]; [done|]. destruct Hid as (_ & _ & _ & _ & _ & _ & _ & Hmon). by destruct (Hmon mon cm u Ec).
Qed.

Lemma reports_mail l1 N N' y : y ∈ new_reports N N' -> mail_good l1 y.
Proof using.
  clear. intros Hy. unfold new_reports in Hy. apply elem_of_list_In, in_concat in Hy as (q & Hq & Hy).
  apply elem_of_list_In in Hq, Hy. apply elem_of_list_fmap in Hq as ([u yu] & -> & _). cbn in Hy.
  destruct (on_nodes N !! u) as [y0|]; [|by apply elem_of_nil in Hy].
  unfold reports in Hy. apply elem_of_list_omap in Hy as (v & _ & E). destruct v; try done. by injection E as <-.
Qed.

Lemma HI_init : HI [] W0.
Proof using Hid Hty.
  split_and!; cbn.
  - intros u s. rewrite map_lookup_imap. destruct (sy_loggers S !! u) as [c'|]; [|done]. cbn. intros [= <-].
    split; intros k g; cbn; by rewrite lookup_empty.
  - intros ca s. rewrite map_lookup_imap. destruct (sy_cas S !! ca) as [c'|]; [|done]. cbn.
    destruct (ct ca) as [[[ty k] d1] d2] eqn:Ect. intros [= <-]. split.
    + intros _. split; intros k' g; cbn; by rewrite lookup_empty.
    + intros ->. rewrite Ect in Hty. cbn in Hty. split_and!; [done| |intros k' g; cbn; by rewrite lookup_empty|].
      * split; [apply cur_ok_new|]. by left.
      * intros rs m Hin. by apply elem_of_nil in Hin.
  - destruct Hid as ((cc & Hc) & _). rewrite map_lookup_imap, Hc. cbn. destruct (ct e) as [[[ty k] d1] d2]. eauto.
  - intros y Hy. by apply elem_of_nil in Hy.
Qed.

(** What an event other than the end of a period does to [e]. *)
Lemma mine_step cc l1 ev s ce : (forall rs m, ev <> ECaPeriod e rs m) -> (forall rs m, ce <> CA.CPeriod rs m) -> (forall i, ce = CA.CRevoke i -> index_ok i) ->
  mine l1 s -> mine (l1 ++ [ev]) (CA.ca_step x z c cc s ce).
Proof using.
  clear. intros Hev Hce Hi H. pose proof H as (_ & [Hc _] & _).
  pose proof (step_crv x z c cc s ce) as E1. pose proof (step_fresh x z c cc s ce) as E2.
  assert (CA.a_type (CA.ca_step x z c cc s ce) = CA.a_type s /\ CA.a_rev (CA.ca_step x z c cc s ce) = CA.a_rev s) as [E3 E4].
  { destruct ce as [ds|g|p|m|i|rs m]; cbn [CA.ca_step]; try done.
    - by destruct (sth_frame cc s g) as (_ & _ & _ & _ & _ & ? & _ & _ & ? & _).
    - by destruct (poi_frame s p) as (_ & _ & _ & _ & _ & ? & _ & _ & ? & _).
    - by destruct (ask_frame s m) as (_ & _ & _ & _ & _ & ? & _ & _ & ? & _).
    - by edestruct Hce. }
  eapply mine_more; eauto.
  - rewrite E2. destruct ce; try done. by edestruct Hce.
  - rewrite E1. destruct ce; try done. by edestruct Hce.
  - rewrite E1. destruct ce as [ds|g|p|m|i|rs m]; try done; [|by edestruct Hce]. cbn.
    apply (cur_ok_sets [i]); [done|]. intros j ->%elem_of_list_singleton. by apply Hi.
Qed.

(** The end of a period. *)
Lemma mine_period cc l1 s rs m : w_cas (run l1) !! e = Some s -> (forall i, i ∈ rs -> index_ok i) ->
  mine l1 s -> mine (l1 ++ [ECaPeriod e rs m]) (CA.ca_step x z c cc s (CA.CPeriod rs m)).
Proof using.
  clear. intros Es Hi (A1 & A2 & A3 & A4).
  pose proof (step_crv x z c cc s (CA.CPeriod rs m)) as E1. pose proof (step_fresh x z c cc s (CA.CPeriod rs m)) as E2. cbn beta iota in E1, E2.
  split_and!.
  - done.
  - split.
    + destruct A2 as [Hc _]. rewrite E1. unfold crv_next. cbn [v_cur]. destruct (CA.a_fresh s); [|done]. destruct (mass_cur rs (CA.a_crv s)) as [-> _]. by apply cur_ok_sets.
    + right. rewrite E1, E2. split_and!; [reflexivity|reflexivity|]. exists rs, m. apply elem_of_app. right. by left.
  - intros k g. cbn. rewrite lookup_insert_Some. intros [[<- <-]|[_ Hk]]; [|by apply made_more, A3].
    exists l1, rs, m, [], s. split_and!; auto; apply A2.
  - intros rs' m' [Hin|Hin]%elem_of_app; cbn.
    + destruct (decide (unpadded (Datatypes.S m') = unpadded (Datatypes.S m))) as [->|Hn]; [rewrite lookup_insert; eauto|]. rewrite lookup_insert_ne by done. by eapply A4.
    + apply elem_of_list_singleton in Hin. injection Hin as -> ->. rewrite lookup_insert. eauto.
Qed.

Lemma HI_step l1 ev l2 : l = (l1 ++ ev :: l2)%list -> HI l1 (run l1) -> HI (l1 ++ [ev]) (run (l1 ++ [ev])).
Proof using Hid Hout Hidx Htime.
  intros El HW. rewrite wrun_app. cbn. set (W := run l1) in *. pose proof HW as (H1 & H2 & H2' & H3).
  pose proof Hid as ((ccx & Hc) & Hn & Hself & Hne & Hpl & Hol & Hoc & Hmon).
  assert (ev ∈ l) as Hin by (rewrite El; apply elem_of_app; right; by left).
  assert (forall W', w_loggers W' = w_loggers W -> w_cas W' = w_cas W -> (forall rs m, ev <> ECaPeriod e rs m) ->
    (forall y, y ∈ w_mail W' -> y ∈ w_mail W \/ mail_good (l1 ++ [ev]) y) -> HI (l1 ++ [ev]) W') as Hkeep.
  { intros W' E1 E2 Hev Hm. eapply HI_keep; eauto. rewrite E1. exact H1. }
  assert (forall W' mon me, w_mail W' ⊆ w_mail W -> w_loggers W' = w_loggers W -> w_cas W' = w_cas W ->
    (forall rs m, ev <> ECaPeriod e rs m) -> HI (l1 ++ [ev]) (mon_event z S W' mon me)) as Hmev.
  { intros W' mon me Hs E1 E2 Hev. apply Hkeep; auto.
    - unfold mon_event. destruct (sy_monitors S !! mon) as [[? ?]|]; [|done]. destruct (_ !! mon); [|done]. by destruct (Monitor.mstep _ _ _ _) as [[? ?]|].
    - unfold mon_event. destruct (sy_monitors S !! mon) as [[? ?]|]; [|done]. destruct (_ !! mon); [|done]. by destruct (Monitor.mstep _ _ _ _) as [[? ?]|].
    - intros y Hy. destruct (mon_mail_good (l1 ++ [ev]) W' mon me y Hy) as [Hy'|]; [left|by right]. by apply Hs. }
  assert (forall W' N, w_mail W' ⊆ w_mail W -> w_loggers W' = w_loggers W -> w_cas W' = w_cas W ->
    (forall rs m, ev <> ECaPeriod e rs m) -> HI (l1 ++ [ev]) (with_net W' N)) as Hnet.
  { intros W' N Hs E1 E2 Hev. apply Hkeep; auto. cbn. intros y [Hy|Hy]%elem_of_app; [left; by apply Hs|right; by eapply reports_mail]. }
  assert (forall W' ca c' cc s ce, w_mail W' ⊆ w_mail W -> w_loggers W' = w_loggers W -> w_cas W' = w_cas W -> w_cas W !! ca = Some s -> sy_cas S !! ca = Some (c', cc) ->
    (forall rs m, ev <> ECaPeriod e rs m) -> (forall rs m, ce <> CA.CPeriod rs m) -> (forall i, ca = e -> ce = CA.CRevoke i -> index_ok i) ->
    forall ms, (forall y, y ∈ ms -> mail_good (l1 ++ [ev]) y) ->
    HI (l1 ++ [ev]) (send (set_cas W' (<[ca := CA.ca_step x z c' cc s ce]> (w_cas W))) ms)) as Hca.
  { intros W' ca c' cc s ce Hs E1 E2 Es Ec Hev Hce Hi ms Hms. destruct (H2 ca s Es) as [B1 B2].
    apply (HI_ca l1 ev W _ ca (CA.ca_step x z c' cc s ce) ms); auto.
    - cbn. intros y [Hy|Hy]%elem_of_app; [left; by apply Hs|by right].
    - intros Hn'. apply other_ca_step; [by eapply Hoc|by apply B1].
    - intros ->. rewrite Hc in Ec. injection Ec as <- <-. apply mine_step; auto. }
  assert (forall V : world, set_mail V (w_mail V) = V) as Hsm by (by intros []).
  assert (forall V : world, send V [] = V) as Hs0 by (intros V; unfold send; rewrite app_nil_r; apply Hsm).
  destruct ev as [i m|i|y|p|ev|u|lg t t1 t2|lg|ca ds|ca n|ca rs m|mon ev|cl mon dir flag]; cbn [wstep].
  - destruct (w_mail W !! i) as [y|] eqn:Ey; [|apply Hkeep; auto].
    assert (w_mail (set_mail W (delete i (w_mail W))) ⊆ w_mail W) as Hsub by (intros y'; apply in_delete).
    assert (mail_good l1 y) as Hy by (apply H3; by eapply elem_of_list_lookup_2).
    assert (HI (l1 ++ [EDeliver i m]) (set_mail W (delete i (w_mail W)))) as HW1.
    { apply Hkeep; auto. }
    destruct y as [lg crt|ca g|ca p|mon f url|mon f url r|u g|mon g]; cbn [receive].
    + cbn. destruct (w_loggers W !! lg) as [s|] eqn:Es; [|exact HW1].
      eapply HI_keep; [exact HW|done| |reflexivity|cbn; intros y Hy'; left; by apply Hsub]. cbn. intros u su. rewrite lookup_insert_Some. intros [[_ <-]|[_ Hs]]; [|by eapply H1].
      pose proof (H1 lg s Es) as [O1 O2]. by split.
    + cbn. destruct (sy_cas S !! ca) as [[cc' cc]|] eqn:Ec; [|exact HW1]. destruct (w_cas W !! ca) as [s|] eqn:Es; [|exact HW1].
      pose proof (Hca (set_mail W (delete i (w_mail W))) ca cc' cc s (CA.CSth g)) as X. rewrite <- (Hs0 (set_cas _ _)). apply X; auto; [done|]. intros y Hy'. by apply elem_of_nil in Hy'.
    + cbn. destruct (w_cas W !! ca) as [s|] eqn:Es; [|exact HW1]. destruct (H2 ca s Es) as [B1 B2].
      eapply (HI_ca l1 (EDeliver i m) W _ ca (CA.receive_poi s p) []); auto.
      * intros Hn'. pose proof (B1 Hn') as [O1 O2]. destruct (poi_frame s p) as (_ & _ & _ & _ & _ & F1 & F2 & _). split; by rewrite ?F1, ?F2.
      * intros Ee. exact (mine_step ccx l1 (EDeliver i m) s (CA.CPoi p) ltac:(done) ltac:(done) ltac:(done) (B2 Ee)).
      * intros y Hy'. by apply elem_of_nil in Hy'.
    + assert (forall r, (url = e -> f = Rev /\ exists g k, r = Some g /\ made (l1 ++ [EDeliver i m]) k g) ->
        (forall g, r = Some g -> g_p0 g = e -> exists k, made (l1 ++ [EDeliver i m]) k g) ->
        forall y, y ∈ [Response mon f url r] -> mail_good (l1 ++ [EDeliver i m]) y) as Hresp.
      { intros r R1 R2 y. rewrite elem_of_list_singleton. intros ->. by split. }
      assert (url = e -> exists rs n, ECaPeriod e rs n ∈ l1 /\ m = Datatypes.S n) as Hin_time.
      { intros ->. destruct Htime as [Ht _]. by eapply (Ht l1 i m l2 mon f). }
      unfold ask. destruct f.
      * assert (url <> e) as Hue by (intros ->; by specialize (Hy eq_refl)).
        cbn [w_loggers set_mail]. destruct (w_loggers W !! url) as [s|] eqn:Es.
        2: { apply Hkeep; auto. cbn. intros y [Hy'%Hsub|Hy']%elem_of_app; [by left|right]. revert y Hy'. by apply Hresp. }
        destruct (Logger.request_sth s m) as [s' r] eqn:Er.
        destruct (other_request_sth e Hne s m s' r (H1 _ _ Es) Er) as [Ho Ha].
        eapply HI_keep; [exact HW|done| |reflexivity|].
        -- cbn. intros u su. rewrite lookup_insert_Some. intros [[_ <-]|[_ Hx]]; eauto.
        -- cbn. intros y [Hy'%Hsub|Hy']%elem_of_app; [by left|right]. revert y Hy'. apply Hresp; [done|].
           intros g Hg Hp. by destruct (Ha g Hg).
      * cbn [w_cas set_mail]. destruct (w_cas W !! url) as [s|] eqn:Es.
        2: { apply Hkeep; auto. cbn. intros y [Hy'%Hsub|Hy']%elem_of_app; [by left|right]. revert y Hy'. apply Hresp; [|done].
             intros ->. destruct H2' as [? E]. by rewrite Es in E. }
        destruct (H2 url s Es) as [Ho He].
        destruct (CA.request_rev s m) as [s' r] eqn:Er.
        eapply (HI_ca l1 (EDeliver i m) W _ url s' [Response mon Rev url (answer r)]); auto.
        -- cbn. intros y [Hy'%Hsub|Hy']%elem_of_app; auto.
        -- intros Hn'. by eapply other_request_rev; [exact Hne|apply Ho|exact Er].
        -- intros Ee. pose proof (mine_step ccx l1 (EDeliver i m) s (CA.CAsk m) ltac:(done) ltac:(done) ltac:(done) (He Ee)) as X.
           cbn [CA.ca_step] in X. by rewrite Er in X.
        -- apply Hresp.
           ++ intros Ee. destruct (He Ee) as (A1 & A2 & A3 & A4). destruct (Hin_time Ee) as (rs & n & Hp & ->).
              split; [done|]. destruct (A4 rs n Hp) as [g Hg]. unfold CA.request_rev in Er. rewrite A1 in Er. cbn in Er. rewrite A1 in Er. injection Er as _ <-.
              cbn. unfold Logger.obj_at. rewrite Hg. exists g, (unpadded (Datatypes.S n)).
              split; [done|]. by apply made_more, A3.
           ++ intros g Hg Hp. destruct (decide (url = e)) as [Ee|Hne'].
              ** destruct (He Ee) as (A1 & A2 & A3 & A4). unfold CA.request_rev in Er. rewrite A1 in Er. cbn in Er. rewrite A1 in Er. injection Er as _ <-.
                 cbn in Hg. injection Hg as <-. unfold Logger.obj_at in *. destruct (CA.a_rev s !! unpadded m) as [g|] eqn:Eg; [|cbn in Hp; congruence].
                 exists (unpadded m). by apply made_more, A3.
              ** exfalso. destruct (other_request_rev e Hne s m s' r (Ho Hne') Er) as [_ Ha]. by apply (Ha g).
      * exact HW1.
    + by apply Hmev.
    + by apply Hnet.
    + by apply Hmev.
  - destruct (w_mail W !! i) as [y|] eqn:Ey; [|apply Hkeep; auto]. apply Hkeep; auto. cbn.
    intros y' [Hy'%in_delete|Hy']%elem_of_app; [by left|right].
    destruct Htime as [_ Hl]. specialize (Hl l1 i l2 y El Ey).
    destruct y; cbn in Hy'; try (by apply elem_of_nil in Hy'); apply elem_of_list_singleton in Hy' as ->; split; done.
  - apply Hkeep; auto. cbn. intros y' [Hy'|Hy']%elem_of_app; [by left|right]. apply elem_of_list_singleton in Hy' as ->.
    destruct Hout as [Ho _]. specialize (Ho y Hin). by destruct y.
  - apply Hkeep; auto.
  - destruct (inner_event ev); [by apply Hnet|]. apply Hkeep; auto.
  - by apply Hnet.
  - destruct (sy_loggers S !! lg) as [c'|] eqn:Ec'; [|apply Hkeep; auto].
    destruct (w_loggers W !! lg) as [s|] eqn:Es; [|apply Hkeep; auto].
    destruct (Logger.publish _ _ _ _ _ _) as [[s' ms] ok] eqn:Ep.
    assert (forall y, y ∈ map log_mail ms -> mail_good (l1 ++ [EPublish lg t t1 t2]) y) as Hms.
    { intros y Hy. by apply elem_of_list_fmap in Hy as ([] & -> & _). }
    assert (other_logger e s') as Ho by (eapply other_publish; [by eapply Hol|by eapply H1|exact Ep]).
    eapply HI_keep; [exact HW|done| |reflexivity|].
    + cbn. destruct ok; intros u su; [rewrite lookup_insert_Some; intros [[_ <-]|[_ Hx]]; eauto|rewrite lookup_delete_Some; intros [_ Hx]; eauto].
    + cbn. intros y [Hy|Hy]%elem_of_app; auto.
  - destruct (w_loggers W !! lg) as [s|] eqn:Es; [|apply Hkeep; auto].
    eapply HI_keep; [exact HW|done| |reflexivity|cbn; by left]. cbn. intros u su. rewrite lookup_insert_Some. intros [[_ <-]|[_ Hx]]; [|eauto].
    pose proof (H1 lg s Es) as [O1 O2]. by split.
  - destruct (sy_cas S !! ca) as [[cc' cc]|] eqn:Ec; [|apply Hkeep; auto]. destruct (w_cas W !! ca) as [s|] eqn:Es; [|apply Hkeep; auto].
    destruct (CA.issue x cc' s ds) as [[s' ?] ms] eqn:Ei.
    pose proof (Hca W ca cc' cc s (CA.CIssue ds) ltac:(done) eq_refl eq_refl Es Ec ltac:(done) ltac:(done) ltac:(done)) as X. cbn [CA.ca_step] in X. rewrite Ei in X. cbn [fst] in X.
    apply X. intros y Hy. by apply elem_of_list_fmap in Hy as ([] & -> & _).
  - unfold ca_event. destruct (sy_cas S !! ca) as [[cc' cc]|] eqn:Ec; [|apply Hkeep; auto]. destruct (w_cas W !! ca) as [s|] eqn:Es; [|apply Hkeep; auto].
    rewrite <- (Hs0 (set_cas _ _)). apply Hca; auto.
    + intros i -> [= ->]. by apply Hidx.
    + intros y Hy'. by apply elem_of_nil in Hy'.
  - unfold ca_event. destruct (sy_cas S !! ca) as [[cc' cc]|] eqn:Ec.
    2: { assert (ca <> e) by (intros ->; congruence). apply Hkeep; auto. by intros ? ? [= ->]. }
    destruct (w_cas W !! ca) as [s|] eqn:Es.
    2: { assert (ca <> e) by (intros ->; destruct H2' as [? E]; congruence). apply Hkeep; auto. by intros ? ? [= ->]. }
    destruct (H2 ca s Es) as [B1 B2].
    apply (HI_ca l1 (ECaPeriod ca rs m) W _ ca (CA.ca_step x z cc' cc s (CA.CPeriod rs m)) []); auto.
    + intros Hn'. apply other_ca_step; [by eapply Hoc|by apply B1].
    + destruct (decide (ca = e)); [by right|left]. by intros ? ? [= ->].
    + intros ->. rewrite Hc in Ec. injection Ec as <- <-. apply mine_period; auto. intros j Hj. destruct Hidx as [_ Hx]. by eapply Hx.
    + intros y Hy'. by apply elem_of_nil in Hy'.
  - destruct (own_event ev); [by apply Hmev|apply Hkeep; auto].
  - destruct (sy_clients S !! cl); [|apply Hkeep; auto]. destruct (w_clients W !! cl); [|apply Hkeep; auto].
    destruct (w_mons W !! mon); [|apply Hkeep; auto]. destruct (_ ≫= _); [|apply Hkeep; auto].
    destruct (Client.handle_update _ _ _ _ _). apply Hkeep; auto.
Qed.

Lemma HI_all l1 l2 : l = (l1 ++ l2)%list -> HI l1 (run l1).
Proof using Hid Hty Hout Hidx Htime.
  revert l2. induction l1 as [|ev l1 IH] using rev_ind; intros l2 El; [apply HI_init|].
  rewrite <- app_assoc in El. cbn in El. eapply HI_step; [exact El|]. by eapply IH.
Qed.

Lemma shown_made g : shown z x S W0 l g -> g_p0 g = e -> exists k, made l k g.
Proof using Hid Hty Hout Hidx Htime.
  intros [(l1 & l2 & mon & f & url & El & Hm)|[(u & Hu)|[(mon & Hu)|(u & path & Hu)]]] Hp.
  - destruct (HI_all l1 l2 El) as (_ & _ & _ & H3). apply H3 in Hm as [_ Hm]. destruct (Hm g eq_refl Hp) as [k Hk].
    exists k. rewrite El. by apply made_more.
  - destruct Hout as [Ho _]. by apply Ho in Hu.
  - destruct Hout as [Ho _]. by apply Ho in Hu.
  - destruct Hout as [_ Ho]. by apply Ho in Hu.
Qed.


Theorem normal_ca_safe : unconvicted e (run l).
Proof using All.
  pose proof Hid as ((ccx & Hc) & Hn & Hself & Hne & Hpl & Hol & Hoc & Hmon).
  apply never_convicted; [done| | |].
  - split.
    + intros g Hg Hp. destruct (shown_made g Hg Hp) as [k (la & rs & m & lb & s & _ & _ & _ & _ & ->)]. by split_and!.
    + intros g h Hg Hh Hp Hst Hi. assert (g_p0 h = e) as Hp' by (injection Hi as _ _ Hi; congruence).
      destruct (shown_made g Hg Hp) as [k Hk]. destruct (shown_made h Hh Hp') as [k' Hk'].
      rewrite (made_unique g h k k' Hk Hk'); [done|]. by injection Hi as Hi _ _.
  - intros g Hg Hp _. destruct (shown_made g Hg Hp) as [k (la & rs & m & lb & s & _ & _ & _ & _ & ->)]. cbn. by rewrite Hn.
  - intros l1 i m l2 mon f r c' u s El Hy Em Es.
    destruct (HI_all l1 (EDeliver i m :: l2) El) as (_ & _ & _ & H3).
    pose proof (elem_of_list_lookup_2 _ _ _ Hy) as Hy'. apply H3 in Hy' as [Hy' _]. destruct (Hy' eq_refl) as [-> (g & k & -> & Hk)].
    exists g. split; [done|]. destruct Hk as (la & rs & n & lb & sa & E1 & Sa & [V1 V2] & -> & Eg).
    destruct (Hmon mon c' u Em) as (_ & Hsc & pk & Hpk & Hok). rewrite Hself, Hn in Eg.
    split; [rewrite Eg; by eapply generated_verifies|]. intros _.
    assert (forall j, j ∈ rs -> index_ok j) as Hrs.
    { destruct Hidx as [_ Hx]. intros j. apply (Hx rs n). rewrite El, E1, !elem_of_app. left. right. by left. }
    assert (cur_ok (v_cur (vector_of sa rs))) as Hcur.
    { unfold vector_of. destruct (CA.a_fresh sa); [|done]. destruct (mass_cur rs (CA.a_crv sa)) as [-> _]. by apply cur_ok_sets. }
    assert (bs_ok (crv_delta (vector_of sa rs)) /\ ((forall rs' m', ECaPeriod e rs' m' ∉ la) -> v_cur (vector_of sa rs) = crv_delta (vector_of sa rs))) as [Hd Hfirst].
    { unfold vector_of in *. destruct V2 as [[F1 F2]|(F1 & F2 & rs' & m' & Hin)]; rewrite F1 in *.
      - destruct (mass_cur rs (CA.a_crv sa)) as [_ M2]. unfold crv_delta. rewrite M2, F2. rewrite bs_symdiff_new by apply Hcur. split; [by apply cur_ok_ok|done].
      - unfold crv_delta. rewrite F2. split; [apply cur_ok_ok, cur_ok_new|]. intros Hno. by apply Hno in Hin. }
    assert (w_cas (run (la ++ [ECaPeriod e rs n])) !! e = Some (CA.ca_step x z c ccx sa (CA.CPeriod rs n))) as Sb.
    { rewrite wrun_app. cbn. unfold ca_event. rewrite Hc, Sa. cbn. by rewrite lookup_insert. }
    assert (CA.a_rev (CA.ca_step x z c ccx sa (CA.CPeriod rs n)) !! unpadded (Datatypes.S n) = Some g) as Gb.
    { cbn. rewrite lookup_insert. rewrite Eg, Hself, Hn. done. }
    pose proof (Hrec l1 i m l2 mon g c' u s la rs n lb _ El Hy Em Es E1 Sb Gb) as R.
    unfold Monitor.check_rev. rewrite Eg. rewrite generated_decodes by done. cbn [g_p0 generate_revocation g_period].
    erewrite verify_srh_signed by done. cbn [revocation_delta].
    assert (default (crv_delta (vector_of sa rs)) (Monitor.m_crv s !! e) = v_cur (vector_of sa rs)) as ->.
    { destruct R as [R|[R Hno]]; rewrite R.
      - cbn [default from_option]. change (default ?q (Some ?w)) with w. by rewrite (step_crv x z c ccx sa (CA.CPeriod rs n)).
      - symmetry. by apply Hfirst. }
    by rewrite Hok.
Qed.

(** An object of [e] is rejected, and the monitor sets off an accusation of [e], if what the monitor has recorded (the change in the object itself, if it
    has recorded nothing) is not what [e] had revoked when it made the object. *)
Theorem unrecorded_accused l1 i n l2 mon g c' u s la rs m lb sa pk :
  (forall t t', h_sha256 P t = h_sha256 P t' -> t = t') ->
  cc_rsa_pubs (Monitor.mc_crypto c') !! e = Some pk -> (forall t t', rsa_check pk t' (rsa_sign (CA.cac_key c) t) = true -> t' = t) ->
  l = (l1 ++ EDeliver i n :: l2)%list -> w_mail (run l1) !! i = Some (Response mon Rev e (Some g)) ->
  sy_monitors S !! mon = Some (c', u) -> w_mons (run l1) !! mon = Some s ->
  l1 = (la ++ ECaPeriod e rs m :: lb)%list -> w_cas (run (la ++ [ECaPeriod e rs m])) !! e = Some sa ->
  CA.a_rev sa !! unpadded (Datatypes.S m) = Some g ->
  bs_marshal (default (snd (srh_and_dcrv z g)) (Monitor.m_crv s !! e)) <> bs_marshal (v_cur (CA.a_crv sa)) ->
  exists s', w_mons (run (l1 ++ [EDeliver i n])) !! mon = Some s' /\ Monitor.m_timers s' = (Monitor.m_timers s ++ [Monitor.TAccuse e Rev])%list /\
    Monitor.m_rev s' = Monitor.m_rev s /\ Monitor.m_crv s' = Monitor.m_crv s.
Proof using Hz Hid Hty Hout Hidx Htime.
  intros Hh Hpk Hstrict El Hy Em Es E1 Sa Eg Hd. pose proof Hid as ((ccx & Hc) & Hn & Hself & Hne & Hpl & _ & _ & Hmon).
  destruct (Hmon mon c' u Em) as (_ & Hsc & pk' & Hpk' & Hok). rewrite Hpk in Hpk'. injection Hpk' as <-.
  assert (l = (la ++ (ECaPeriod e rs m :: lb ++ EDeliver i n :: l2))%list) as El' by (by rewrite El, E1, <- app_assoc).
  destruct (HI_all la _ El') as (_ & H2 & [sb Sb] & _). destruct (H2 e sb Sb) as [_ X]. destruct (X eq_refl) as (_ & [V1 V2] & _). clear X H2.
  assert (Sa' : sa = CA.ca_step x z c ccx sb (CA.CPeriod rs m)).
  { rewrite wrun_app in Sa. cbn in Sa. unfold ca_event in Sa. rewrite Hc, Sb in Sa. cbn in Sa. rewrite lookup_insert in Sa. by injection Sa as <-. }
  assert (g = generate_revocation z (CA.cac_key c) e e (vector_of sb rs) (CA.a_online sb) (unpadded (Datatypes.S m)) false) as ->.
  { rewrite Sa' in Eg. cbn in Eg. rewrite lookup_insert in Eg. injection Eg as <-. by rewrite Hself, Hn. }
  clear Eg.
  assert (v_cur (CA.a_crv sa) = v_cur (vector_of sb rs)) as Ev by (by rewrite Sa', (step_crv x z c ccx sb (CA.CPeriod rs m))).
  rewrite Ev in Hd. clear Sa Sa' Ev.
  assert (forall j, j ∈ rs -> index_ok j) as Hrs.
  { destruct Hidx as [_ Hx]. intros j. apply (Hx rs m). rewrite El', elem_of_app. right. by left. }
  assert (bs_ok (crv_delta (vector_of sb rs))) as Hdel.
  { unfold vector_of in *. destruct V2 as [[F1 F2]|(F1 & F2 & _)]; rewrite F1 in *.
    - destruct (mass_cur rs (CA.a_crv sb)) as [M1 M2]. unfold crv_delta. rewrite M2, F2.
      assert (cur_ok (v_cur (crv_mass_revoke (CA.a_crv sb) rs))) as Hcur by (rewrite M1; by apply cur_ok_sets).
      rewrite bs_symdiff_new by apply Hcur. by apply cur_ok_ok.
    - unfold crv_delta. rewrite F2. apply cur_ok_ok, cur_ok_new. }
  rewrite wrun_app. cbn [wrun]. unfold wrun at 1. cbn [fold_left wstep]. fold (run l1). rewrite Hy. cbn [receive]. unfold mon_event.
  cbn [w_mons set_mail]. rewrite Em, Es. cbn [Monitor.mstep]. unfold Monitor.handle_reply.
  rewrite (generated_verifies (Monitor.mc_crypto c') z (CA.cac_key c) pk) by done.
  assert (Monitor.check_rev z c' s (generate_revocation z (CA.cac_key c) e e (vector_of sb rs) (CA.a_online sb) (unpadded (Datatypes.S m)) false) = Reject) as ->.
  { rewrite generated_decodes in Hd by done. cbn [snd revocation_delta] in Hd.
    unfold Monitor.check_rev. rewrite generated_decodes by done. cbn [g_p0 generate_revocation g_period].
    erewrite verify_srh_signed by done. cbn [revocation_delta]. destruct (rsa_check pk _ _) eqn:Ec; [exfalso|done]. apply Hstrict in Ec. apply Hd.
    unfold srh_message in Ec. apply Hh, app_inj_l, app_inj_r in Ec. by apply Hh. }
  cbn. rewrite lookup_insert. eexists. split; [reflexivity|]. done.
Qed.
End honest.
