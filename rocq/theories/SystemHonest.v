(** The whole system: a normal logger whose queries come in time is never convicted. *)
From Verif Require Import Bytes Hex Json Types Crypto Verify Bitset Cert CertPool CTngExt Clock Revocation Prog Gossiper Network Overlap System SpecVerify SpecGossiper SpecCodec SpecSystem CodecFacts SystemFacts LoggerFacts.
From Verif Require Logger CA Monitor Client.
From Coq Require Import Lia.
Open Scope string_scope.

Lemma omap_split {A B} (f : A -> option B) l a1 x1 b1 a2 x2 b2 v :
  l = (a1 ++ x1 :: b1)%list -> l = (a2 ++ x2 :: b2)%list -> f x1 = Some v -> f x2 = Some v -> NoDup (omap f l) ->
  a1 = a2 /\ x1 = x2.
Proof.
  revert a1 a2. induction l as [|y l IH]; intros a1 a2 E1 E2 F1 F2 Hn; [by destruct a1|].
  assert (forall a x b, l = (a ++ x :: b)%list -> f x = Some v -> f y = Some v -> False) as Hx.
  { intros a x b E Fx Fy. cbn in Hn. rewrite Fy in Hn. apply NoDup_cons in Hn as [Hn _]. apply Hn.
    apply elem_of_list_omap. exists x. split; [|done]. rewrite E. apply elem_of_app. right. by left. }
  destruct a1 as [|y1 a1], a2 as [|y2 a2]; cbn in E1, E2.
  - split; [done|]. congruence.
  - injection E1 as -> ->. injection E2 as <- E2. exfalso. by eapply Hx.
  - injection E2 as -> ->. injection E1 as <- E1. exfalso. by eapply Hx.
  - injection E1 as <- E1. injection E2 as <- E2. destruct (IH a1 a2) as [-> ->]; auto.
    cbn in Hn. destruct (f y); [|done]. by apply NoDup_cons in Hn as [_ ?].
Qed.

Section others.
Context (e : string) (Hne : e <> "").
Definition other_tbl (m : gmap string gobj) : Prop := forall k g, m !! k = Some g -> g_p0 g <> e.
Definition other_logger (s : Logger.lst) : Prop := other_tbl (Logger.l_sth s) /\ other_tbl (Logger.l_fake s).
Definition other_ca (s : CA.cast) : Prop := other_tbl (CA.a_rev s) /\ other_tbl (CA.a_fake s).

Lemma other_at m k : other_tbl m -> g_p0 (Logger.obj_at m k) <> e.
Proof using Hne. intros H. unfold Logger.obj_at. destruct (m !! k) as [g|] eqn:E; [by eapply H|]. cbn. congruence. Qed.

Lemma other_insert m k g : other_tbl m -> g_p0 g <> e -> other_tbl (<[k := g]> m).
Proof using. clear. intros H Hg j o. rewrite lookup_insert_Some. intros [[_ <-]|[_ Hj]]; eauto. Qed.

Lemma other_request_sth s m s' r : other_logger s -> Logger.request_sth s m = (s', r) ->
  other_logger s' /\ forall g, answer r = Some g -> g_p0 g <> e.
Proof using Hne.
  intros [H1 H2] [= <- <-]. split; [done|]. intros g. cbn [Logger.l_type Logger.l_sth Logger.l_fake Logger.set_l_count].
  pose proof (other_at (Logger.l_sth s) (pad2 m) H1) as A. pose proof (other_at (Logger.l_fake s) (pad2 m) H2) as B.
  destruct (Logger.l_type s) as [|p|p]; [intros [= <-]; exact A| |done].
  repeat (destruct p as [p|p|]; try done);
    repeat match goal with |- context[if ?b then _ else _] => destruct b end; cbn; intros [= <-]; assumption.
Qed.

Lemma other_request_rev s m s' r : other_ca s -> CA.request_rev s m = (s', r) ->
  other_ca s' /\ forall g, answer r = Some g -> g_p0 g <> e.
Proof using Hne.
  intros [H1 H2] [= <- <-]. split; [by destruct (Z.eqb _ _)|]. intros g.
  set (s1 := if Z.eqb (CA.a_type s) 0 then s else _).
  assert (CA.a_rev s1 = CA.a_rev s /\ CA.a_fake s1 = CA.a_fake s /\ CA.a_type s1 = CA.a_type s) as (E1 & E2 & E3).
  { unfold s1. by destruct (Z.eqb _ _). }
  rewrite E1, E2, E3. clearbody s1.
  pose proof (other_at (CA.a_rev s) (unpadded m) H1) as A. pose proof (other_at (CA.a_fake s) (unpadded m) H2) as B.
  destruct (CA.a_type s) as [|p|p]; [intros [= <-]; exact A| |done].
  repeat (destruct p as [p|p|]; try done);
    repeat match goal with |- context[if ?b then _ else _] => destruct b end; cbn; intros [= <-]; assumption.
Qed.

Context {P : prims}.
Lemma other_publish (c : Logger.lconf P) up s t t1 t2 s' ms ok : Logger.lc_signer c <> e -> other_logger s ->
  Logger.publish c up s t t1 t2 = (s', ms, ok) -> other_logger s'.
Proof using.
  clear. intros Hc [H1 H2]. unfold Logger.publish. destruct (Logger.build_tree c _ t1 _) as [[[g root] pois]|] eqn:E1; [|by intros [= <- _ _]].
  destruct (get_certs _) as [|first certs]; [by intros [= <- _ _]|].
  destruct (Logger.build_tree c _ t2 _) as [[[fk ?] ?]|] eqn:E2; [|by intros [= <- _ _]].
  destruct (Logger.send_pois _ _ _ _) as [ms1 ok1]. intros [= <- _ _].
  assert (forall certs t k g' r' p', Logger.build_tree c certs t k = Some (g', r', p') -> g_p0 g' <> e) as Hb.
  { intros cs t' k g' r' p'. unfold Logger.build_tree. destruct (Merkle.new_tree _ _); [|done]. by intros [= <- _ _]. }
  split; cbn; apply other_insert; eauto.
Qed.

Lemma other_ca_step x z (c : CA.caconf P) cc s ev : CA.cac_signer c <> e -> other_ca s -> other_ca (CA.ca_step x z c cc s ev).
Proof using.
  clear. intros Hc [H1 H2]. destruct ev as [ds|g|p|m|i|l m]; cbn.
  - done.
  - unfold CA.receive_sth. by destruct (verify cc g).
  - unfold CA.receive_poi. by destruct (get_by_ski _ _).
  - by destruct (Z.eqb _ _).
  - done.
  - split; cbn; apply other_insert; auto.
Qed.
End others.

Section honest.
Context {P : prims} (z : gzip) (x : CA.x509lib) (S : sysconf P) (a b d : string) (lt : string -> Z * Z) (ct : string -> Z * Z * CA.draw * CA.draw).
Notation W0 := (world_init x S a b d lt ct).
Notation run := (wrun z x S W0).
Context (e : string) (c : Logger.lconf P) (l : list wevent).
Context (Hid : logger_identity S e c) (Hty : (lt e).1 = 0%Z).
Context (Hout : outsiders_silent e l) (Honce : NoDup (publications e l)) (Htime : in_time z x S W0 e l).

(** [g] is the head [e] made for the next minute at a point of the history [l1]. *)
Definition made (l1 : list wevent) (k : string) (g : gobj) : Prop :=
  exists la t t1 t2 lb s root pois, l1 = (la ++ EPublish e t t1 t2 :: lb)%list /\ w_loggers (run la) !! e = Some s /\
    k = pad2 (Datatypes.S (Logger.n_minute t)) /\
    Logger.build_tree c (get_certs (Logger.l_pool s)) t1 (Datatypes.S (Logger.n_minute t)) = Some (g, root, pois).

Lemma made_more l1 l2 k g : made l1 k g -> made (l1 ++ l2) k g.
Proof using.
  clear. intros (la & t & t1 & t2 & lb & s & root & pois & -> & H). exists la, t, t1, t2, (lb ++ l2)%list, s, root, pois.
  split; [|done]. by rewrite <- app_assoc.
Qed.

Lemma made_shape l1 k g : made l1 k g -> exists t root size m, g = Logger.sth_object c t root size m /\ k = pad2 m.
Proof using.
  clear. intros (la & t & t1 & t2 & lb & s & root & pois & _ & _ & -> & Hb). unfold Logger.build_tree in Hb.
  destruct (Merkle.new_tree _ _) as [tr|]; [|done]. injection Hb as <- _ _. do 4 eexists. by split.
Qed.

Lemma made_unique g h k k' : made l k g -> made l k' h -> g_period g = g_period h -> g = h.
Proof using Honce.
  intros (la & t & t1 & t2 & lb & s & root & pois & E1 & S1 & _ & B1) (la' & t' & t1' & t2' & lb' & s' & root' & pois' & E2 & S2 & _ & B2) Hp.
  assert (Logger.n_minute t = Logger.n_minute t') as Hm.
  { unfold Logger.build_tree in B1, B2. destruct (Merkle.new_tree _ _) as [tr|]; [|done]. destruct (Merkle.new_tree _ _) as [tr'|] in B2; [|done].
    injection B1 as <- _ _. injection B2 as <- _ _. cbn in Hp. apply itoa_inj in Hp. lia. }
  assert (la = la' /\ EPublish e t t1 t2 = EPublish e t' t1' t2') as [Ea Ex].
  { eapply omap_split; [exact E1|exact E2| | |exact Honce]; cbn; rewrite String.eqb_refl; [done|by f_equal]. }
  injection Ex as <- <- <-. subst la'. rewrite S1 in S2. injection S2 as <-. rewrite B1 in B2. by injection B2 as -> _ _.
Qed.

Definition mail_good (l1 : list wevent) (y : mail) : Prop :=
  match y with
  | Query mon f url => url = e -> f = Sth
  | Response mon f url r =>
      (url = e -> f = Sth /\ exists g k, r = Some g /\ made l1 k g) /\
      (forall g, r = Some g -> g_p0 g = e -> exists k, made l1 k g)
  | _ => True
  end.

Definition HI (l1 : list wevent) (W : world) : Prop :=
  (forall u s, w_loggers W !! u = Some s -> exists c', sy_loggers S !! u = Some c' /\
     (u <> e -> other_logger e s) /\
     (u = e -> Logger.l_type s = 0%Z /\ (forall k g, Logger.l_sth s !! k = Some g -> made l1 k g) /\
        (forall t t1 t2, EPublish e t t1 t2 ∈ l1 -> is_Some (Logger.l_sth s !! pad2 (Datatypes.S (Logger.n_minute t)))))) /\
  (forall ca s, w_cas W !! ca = Some s -> other_ca e s) /\
  (forall y, y ∈ w_mail W -> mail_good l1 y).

Lemma mail_good_more l1 l2 y : mail_good l1 y -> mail_good (l1 ++ l2) y.
Proof using.
  clear. destruct y as [| | | |mon f url r| |]; cbn; auto. intros [H1 H2]. split.
  - intros E. destruct (H1 E) as [Hf (g & k & -> & Hg)]. split; [done|]. exists g, k. split; [done|]. by apply made_more.
  - intros g Hg Hp. destruct (H2 g Hg Hp) as [k Hk]. exists k. by apply made_more.
Qed.

(** Most events leave loggers alone and add harmless mail. *)
Lemma HI_keep l1 ev W W' : HI l1 W -> (forall t t1 t2, ev <> EPublish e t t1 t2) ->
  w_loggers W' = w_loggers W -> (forall ca s, w_cas W' !! ca = Some s -> other_ca e s) ->
  (forall y, y ∈ w_mail W' -> y ∈ w_mail W \/ mail_good (l1 ++ [ev]) y) -> HI (l1 ++ [ev]) W'.
Proof using.
  intros (H1 & H2 & H3) Hev El Hc Hm. split_and!; auto.
  - rewrite El. intros u s Hs. destruct (H1 u s Hs) as (c' & Ec & Ho & He). exists c'. split; [done|]. split; [done|].
    intros Eu. destruct (He Eu) as (A1 & A2 & A3). split_and!; auto.
    + intros k g Hk. by apply made_more, A2.
    + intros t t1 t2 [Hin|Hin]%elem_of_app; [by eapply A3|]. apply elem_of_list_singleton in Hin. by edestruct Hev.
  - intros y Hy. destruct (Hm y Hy) as [Hy'|]; [|done]. by apply mail_good_more, H3.
Qed.

(** A logger is replaced. *)
Lemma HI_logger l1 ev W u s s' ms c' : HI l1 W -> sy_loggers S !! u = Some c' -> w_loggers W !! u = Some s ->
  (u <> e -> other_logger e s') ->
  (forall t t1 t2, ev <> EPublish e t t1 t2) \/ u = e ->
  (u = e -> Logger.l_type s' = 0%Z /\ (forall k g, Logger.l_sth s' !! k = Some g -> made (l1 ++ [ev]) k g) /\
     (forall t t1 t2, EPublish e t t1 t2 ∈ (l1 ++ [ev])%list -> is_Some (Logger.l_sth s' !! pad2 (Datatypes.S (Logger.n_minute t))))) ->
  (forall y, y ∈ ms -> mail_good (l1 ++ [ev]) y) ->
  HI (l1 ++ [ev]) (send (set_loggers W (<[u := s']> (w_loggers W))) ms).
Proof using.
  intros (H1 & H2 & H3) Ec Es Ho Hev He Hm. split_and!; auto; cbn.
  - intros v sv. rewrite lookup_insert_Some. intros [[<- <-]|[Hv Hs]]; [by exists c'|].
    destruct (H1 v sv Hs) as (cv & Ev & B1 & B2). exists cv. split; [done|]. split; [done|].
    intros Ee. destruct (B2 Ee) as (A1 & A2 & A3). split_and!; auto.
    + intros k g Hk. by apply made_more, A2.
    + intros t t1 t2 [Hin|Hin]%elem_of_app; [by eapply A3|]. apply elem_of_list_singleton in Hin. subst v.
      destruct Hev as [Hev|Hev]; [by edestruct Hev|done].
  - intros y [Hy|Hy]%elem_of_app; [by apply mail_good_more, H3|by apply Hm].
Qed.

Lemma mon_mail_good l1 W mon ev :
  (forall y, y ∈ w_mail (mon_event z S W mon ev) -> y ∈ w_mail W \/ mail_good l1 y).
Proof using Hid.
  intros y. unfold mon_event. destruct (sy_monitors S !! mon) as [[cm u]|] eqn:Ec; [|by left].
  destruct (w_mons W !! mon) as [s|]; [|by left]. destruct (Monitor.mstep z cm s ev) as [[s' o]|] eqn:Em; [|by left].
  cbn. intros [Hy|Hy]%elem_of_app; [by left|right]. apply elem_of_list_fmap in Hy as (w & -> & Hw).
  destruct w as [g|f' url]; [done|]. cbn. intros ->.
  assert (Monitor.MAsk f' e ∈ o -> f' = Sth \/ e ∈ Monitor.mc_cas cm) as Ha.
  { assert (forall o', o' = o -> Monitor.MAsk f' e ∉ o' -> Monitor.MAsk f' e ∈ o -> f' = Sth \/ e ∈ Monitor.mc_cas cm) as Hno by (intros ? ->; done).
    assert (forall g, Monitor.MAsk f' e ∉ (Monitor.process_valid z cm s g).2) as Hpv.
    { intros g. unfold Monitor.process_valid. destruct (obj_kind g) as [[[]| |]| |]; cbn;
        try (destruct (Monitor.is_logger _ _)); try (destruct (Monitor.is_authority _ _)); cbn;
        rewrite ?elem_of_list_singleton; try done; apply not_elem_of_nil. }
    destruct ev as [g|m|m|f2 url r|n m stamp| |m|m]; cbn in Em.
    - injection Em as Em. eapply Hno; [done|]. replace o with (Monitor.handle_gossip z cm s g).2 by (by rewrite Em).
      unfold Monitor.handle_gossip. destruct (Monitor.is_duplicate s g); [apply not_elem_of_nil|].
      destruct (obj_kind g) as [[[]| |]| |]; try apply Hpv; apply not_elem_of_nil.
    - injection Em as _ <-. unfold Monitor.query. intros Hin. apply elem_of_list_fmap in Hin as (v & [= -> _] & _). by left.
    - injection Em as _ <-. unfold Monitor.query. intros Hin. apply elem_of_list_fmap in Hin as (v & [= -> <-] & Hv). right.
      apply elem_of_list_In, List.filter_In in Hv as [Hv _]. by apply elem_of_list_In.
    - eapply Hno; [done|]. unfold Monitor.handle_reply in Em.
      destruct r as [g|]; [|injection Em as _ <-; apply not_elem_of_nil].
      assert (Some (Monitor.process_valid z cm s g) = Some (s', o) -> Monitor.MAsk f' e ∉ o) as Hpv'.
      { intros [= E]. replace o with (Monitor.process_valid z cm s g).2 by (by rewrite E). apply Hpv. }
      destruct (verify _ g); [|injection Em as _ <-; apply not_elem_of_nil|done].
      destruct f2; [by apply Hpv'| |by apply Hpv'].
      destruct (Monitor.check_rev z cm s g); [by apply Hpv'|injection Em as _ <-; apply not_elem_of_nil|done].
    - eapply Hno; [done|]. destruct (Monitor.m_timers s !! n) as [t|]; [|injection Em as _ <-; apply not_elem_of_nil].
      destruct t as [ca dd|ee ff]; cbn in Em; injection Em as _ <-; [apply not_elem_of_nil|].
      unfold Monitor.accuse_timer, Monitor.accuse. destruct (_ && _); [|apply not_elem_of_nil].
      destruct (Monitor.has_pom _ _ _); [apply not_elem_of_nil|]. by rewrite elem_of_list_singleton.
    - injection Em as _ <-. eapply Hno; [done|apply not_elem_of_nil].
    - injection Em as _ <-. eapply Hno; [done|apply not_elem_of_nil].
    - injection Em as _ <-. eapply Hno; [done|apply not_elem_of_nil]. }
  destruct (Ha Hw) as [|Hin]; [done|]. destruct Hid as (_ & _ & _ & _ & _ & _ & Hmon). by destruct (Hmon mon cm u Ec).
Qed.

Lemma reports_mail l1 N N' y : y ∈ new_reports N N' -> mail_good l1 y.
Proof using.
  clear. intros Hy. unfold new_reports in Hy. apply elem_of_list_In, in_concat in Hy as (q & Hq & Hy).
  apply elem_of_list_In in Hq, Hy. apply elem_of_list_fmap in Hq as ([u yu] & -> & _). cbn in Hy.
  destruct (on_nodes N !! u) as [y0|]; [|by apply elem_of_nil in Hy].
  unfold reports in Hy. apply elem_of_list_omap in Hy as (v & _ & E). destruct v; try done. by injection E as <-.
Qed.

Lemma HI_init : HI [] W0.
Proof using Hid Hty.
  split_and!; cbn.
  - intros u s. rewrite map_lookup_imap. destruct (sy_loggers S !! u) as [c'|] eqn:E; [|done]. cbn. intros [= <-].
    exists c'. split; [done|]. split.
    + intros _. split; intros k g; cbn; by rewrite lookup_empty.
    + intros ->. split_and!; [done|intros k g; cbn; by rewrite lookup_empty|]. intros t t1 t2 Hin. by apply elem_of_nil in Hin.
  - intros ca s. rewrite map_lookup_imap. destruct (sy_cas S !! ca) as [c'|]; [|done]. cbn.
    destruct (ct ca) as [[[ty k] d1] d2]. intros [= <-].
    split; intros k' g; cbn; by rewrite lookup_empty.
  - intros y Hy. by apply elem_of_nil in Hy.
Qed.

Lemma HI_step l1 ev l2 : l = (l1 ++ ev :: l2)%list -> HI l1 (run l1) -> HI (l1 ++ [ev]) (run (l1 ++ [ev])).
Proof using All.
  intros El HW. rewrite wrun_app. cbn. set (W := run l1) in *. pose proof HW as (H1 & H2 & H3).
  pose proof Hid as (Hc & Hn & Hne & Hpl & Hol & Hoc & Hmon).
  assert (ev ∈ l) as Hin by (rewrite El; apply elem_of_app; right; by left).
  assert (forall W', w_loggers W' = w_loggers W -> w_cas W' = w_cas W -> (forall t t1 t2, ev <> EPublish e t t1 t2) ->
    (forall y, y ∈ w_mail W' -> y ∈ w_mail W \/ mail_good (l1 ++ [ev]) y) -> HI (l1 ++ [ev]) W') as Hkeep.
  { intros W' E1 E2 Hev Hm. eapply HI_keep; eauto. rewrite E2. exact H2. }
  assert (forall W' mon me, w_mail W' ⊆ w_mail W -> w_loggers W' = w_loggers W -> w_cas W' = w_cas W ->
    (forall t t1 t2, ev <> EPublish e t t1 t2) -> HI (l1 ++ [ev]) (mon_event z S W' mon me)) as Hmev.
  { intros W' mon me Hs E1 E2 Hev. apply Hkeep; auto.
    - unfold mon_event. destruct (sy_monitors S !! mon) as [[? ?]|]; [|done]. destruct (_ !! mon); [|done]. by destruct (Monitor.mstep _ _ _ _) as [[? ?]|].
    - unfold mon_event. destruct (sy_monitors S !! mon) as [[? ?]|]; [|done]. destruct (_ !! mon); [|done]. by destruct (Monitor.mstep _ _ _ _) as [[? ?]|].
    - intros y Hy. destruct (mon_mail_good (l1 ++ [ev]) W' mon me y Hy) as [Hy'|]; [left|by right]. by apply Hs. }
  assert (forall W' N, w_mail W' ⊆ w_mail W -> w_loggers W' = w_loggers W -> w_cas W' = w_cas W ->
    (forall t t1 t2, ev <> EPublish e t t1 t2) -> HI (l1 ++ [ev]) (with_net W' N)) as Hnet.
  { intros W' N Hs E1 E2 Hev. apply Hkeep; auto. cbn. intros y [Hy|Hy]%elem_of_app; [left; by apply Hs|right; by eapply reports_mail]. }
  assert (forall W' ca s', w_mail W' ⊆ w_mail W -> w_loggers W' = w_loggers W -> w_cas W' = w_cas W -> other_ca e s' ->
    (forall t t1 t2, ev <> EPublish e t t1 t2) -> HI (l1 ++ [ev]) (set_cas W' (<[ca := s']> (w_cas W)))) as Hca.
  { intros W' ca s' Hs E1 E2 Ho Hev. eapply HI_keep; eauto.
    - cbn. intros ca' sx. rewrite lookup_insert_Some. intros [[_ <-]|[_ Hx]]; eauto. }
  destruct ev as [i m|i|y|p|ev|u|lg t t1 t2|lg|ca ds|ca n|ca rs m|mon ev|cl mon dir flag]; cbn [wstep].
  - destruct (w_mail W !! i) as [y|] eqn:Ey; [|apply Hkeep; auto].
    assert (w_mail (set_mail W (delete i (w_mail W))) ⊆ w_mail W) as Hsub by (intros y'; apply in_delete).
    assert (mail_good l1 y) as Hy by (apply H3; by eapply elem_of_list_lookup_2).
    assert (HI (l1 ++ [EDeliver i m]) (set_mail W (delete i (w_mail W)))) as HW1.
    { apply Hkeep; auto. }
    destruct y as [lg crt|ca g|ca p|mon f url|mon f url r|u g|mon g]; cbn [receive].
    + cbn. destruct (w_loggers W !! lg) as [s|] eqn:Es; [|exact HW1].
      destruct (H1 lg s Es) as (c' & Ec' & Ho & He).
      pose proof (HI_logger l1 (EDeliver i m) W lg s (Logger.receive_precert s crt) [] c' HW Ec' Es) as HL.
      destruct HL as (L1 & L2 & L3); auto.
      * intros Ee. destruct (He Ee) as (A1 & A2 & A3). split_and!; auto.
        -- intros k g Hk. by apply made_more, A2.
        -- intros t t1 t2 [Ht|Ht]%elem_of_app; [by eapply A3|]. by apply elem_of_list_singleton in Ht.
      * intros y Hy'. by apply elem_of_nil in Hy'.
      * split_and!; auto. cbn. intros y Hy'%Hsub. apply L3. cbn. apply elem_of_app. by left.
    + cbn. destruct (sy_cas S !! ca) as [[cc' cc]|] eqn:Ec; [|exact HW1]. destruct (w_cas W !! ca) as [s|] eqn:Es; [|exact HW1].
      apply Hca; auto. apply (other_ca_step e x z cc' cc s (CA.CSth g)); [by eapply Hoc|by eapply H2].
    + cbn. destruct (w_cas W !! ca) as [s|] eqn:Es; [|exact HW1].
      apply Hca; auto. unfold CA.receive_poi. pose proof (H2 _ _ Es). by destruct (get_by_ski _ _).
    + assert (forall r, (url = e -> f = Sth /\ exists g k, r = Some g /\ made (l1 ++ [EDeliver i m]) k g) ->
        (forall g, r = Some g -> g_p0 g = e -> exists k, made (l1 ++ [EDeliver i m]) k g) ->
        forall y, y ∈ [Response mon f url r] -> mail_good (l1 ++ [EDeliver i m]) y) as Hresp.
      { intros r R1 R2 y. rewrite elem_of_list_singleton. intros ->. by split. }
      assert (url = e -> is_Some (w_loggers W !! e) /\ exists t t1 t2, EPublish e t t1 t2 ∈ l1 /\ m = Datatypes.S (Logger.n_minute t)) as Hin_time.
      { intros ->. destruct Htime as [Ht _]. by eapply (Ht l1 i m l2 mon f). }
      unfold ask. destruct f.
      * cbn [w_loggers set_mail]. destruct (w_loggers W !! url) as [s|] eqn:Es.
        2: { apply Hkeep; auto. cbn. intros y [Hy'%Hsub|Hy']%elem_of_app; [by left|right]. revert y Hy'. apply Hresp; [|done].
             intros ->. destruct (Hin_time eq_refl) as [[? E] _]. by rewrite Es in E. }
        destruct (H1 url s Es) as (c' & Ec' & Ho & He).
        destruct (Logger.request_sth s m) as [s' r] eqn:Er.
        assert (Logger.l_type s' = Logger.l_type s /\ Logger.l_sth s' = Logger.l_sth s) as [Et El'] by (by injection Er as <- _).
        pose proof (HI_logger l1 (EDeliver i m) W url s s' [Response mon Sth url (answer r)] c' HW Ec' Es) as HL.
        destruct HL as (L1 & L2 & L3); auto.
        -- intros Hne'. by eapply other_request_sth; [exact Hne|apply Ho|exact Er].
        -- intros Ee. destruct (He Ee) as (A1 & A2 & A3). rewrite Et, El'. split_and!; auto.
           ++ intros k g Hk. by apply made_more, A2.
           ++ intros t t1 t2 [Ht|Ht]%elem_of_app; [by eapply A3|]. by apply elem_of_list_singleton in Ht.
        -- apply Hresp.
           ++ intros Ee. destruct (He Ee) as (A1 & A2 & A3). destruct (Hin_time Ee) as (_ & t & t1 & t2 & Hp & ->).
              split; [done|]. destruct (A3 t t1 t2 Hp) as [g Hg]. injection Er as _ <-.
              cbn [Logger.l_type Logger.set_l_count Logger.l_sth]. rewrite A1. unfold Logger.obj_at. rewrite Hg. exists g, (pad2 (Datatypes.S (Logger.n_minute t))).
              split; [done|]. by apply made_more, A2.
           ++ intros g Hg Hp. destruct (decide (url = e)) as [Ee|Hne'].
              ** destruct (He Ee) as (A1 & A2 & A3). injection Er as _ <-.
                 cbn [Logger.l_type Logger.set_l_count Logger.l_sth] in Hg. rewrite A1 in Hg. cbn in Hg. injection Hg as <-.
                 unfold Logger.obj_at in *. destruct (Logger.l_sth s !! pad2 m) as [g|] eqn:Eg; [|cbn in Hp; congruence].
                 exists (pad2 m). by apply made_more, A2.
              ** exfalso. destruct (other_request_sth e Hne s m s' r (Ho Hne') Er) as [_ Ha]. by apply (Ha g).
        -- split_and!; auto. cbn. intros y [Hy'%Hsub|Hy']%elem_of_app; apply L3; cbn; apply elem_of_app; auto.
      * assert (url <> e) as Hue by (intros ->; by specialize (Hy eq_refl)).
        cbn [w_cas set_mail]. destruct (w_cas W !! url) as [s|] eqn:Es.
        2: { apply Hkeep; auto. cbn. intros y [Hy'%Hsub|Hy']%elem_of_app; [by left|right]. revert y Hy'. by apply Hresp. }
        destruct (CA.request_rev s m) as [s' r] eqn:Er.
        destruct (other_request_rev e Hne s m s' r (H2 _ _ Es) Er) as [Ho Ha].
        eapply HI_keep; eauto.
        -- cbn. intros ca sx. rewrite lookup_insert_Some. intros [[_ <-]|[_ Hx]]; eauto.
        -- cbn. intros y [Hy'%Hsub|Hy']%elem_of_app; [by left|right]. revert y Hy'. apply Hresp; [done|].
           intros g Hg Hp. by destruct (Ha g Hg).
      * exact HW1.
    + by apply Hmev.
    + by apply Hnet.
    + by apply Hmev.
  - destruct (w_mail W !! i) as [y|] eqn:Ey; [|apply Hkeep; auto]. apply Hkeep; auto. cbn.
    intros y' [Hy'%in_delete|Hy']%elem_of_app; [by left|right].
    destruct Htime as [_ Hl]. specialize (Hl l1 i l2 y El Ey).
    destruct y; cbn in Hy'; try (by apply elem_of_nil in Hy'); apply elem_of_list_singleton in Hy' as ->; split; done.
  - apply Hkeep; auto. cbn. intros y' [Hy'|Hy']%elem_of_app; [by left|right]. apply elem_of_list_singleton in Hy' as ->.
    destruct Hout as [Ho _]. specialize (Ho y Hin). by destruct y.
  - apply Hkeep; auto.
  - destruct (inner_event ev); [by apply Hnet|]. apply Hkeep; auto.
  - by apply Hnet.
  - destruct (sy_loggers S !! lg) as [c'|] eqn:Ec'.
    2: { assert (lg <> e) by (intros ->; congruence). apply Hkeep; auto. by intros ? ? ? [= ->]. }
    destruct (w_loggers W !! lg) as [s|] eqn:Es.
    2: { split_and!; auto.
         - intros u s Hs. destruct (H1 u s Hs) as (cu & Ecu & B1 & B2). exists cu. split; [done|]. split; [done|].
           intros Ee. destruct (B2 Ee) as (A1 & A2 & A3). split_and!; auto.
           + intros k g Hk. by apply made_more, A2.
           + intros t' t1' t2' [Ht|Ht]%elem_of_app; [by eapply A3|]. apply elem_of_list_singleton in Ht. injection Ht as <- <- <- <-.
             subst u. congruence.
         - intros y Hy. by apply mail_good_more, H3. }
    destruct (H1 lg s Es) as (c2 & Ec2 & Ho & He). rewrite Ec' in Ec2. injection Ec2 as <-.
    destruct (Logger.publish _ _ _ _ _ _) as [[s' ms] ok] eqn:Ep.
    assert (forall y, y ∈ map log_mail ms -> mail_good (l1 ++ [EPublish lg t t1 t2]) y) as Hms.
    { intros y Hy. by apply elem_of_list_fmap in Hy as ([] & -> & _). }
    destruct ok.
    + eapply HI_logger; eauto.
      * intros Hne'. eapply other_publish; [|by apply Ho|exact Ep]. by eapply Hol.
      * destruct (decide (lg = e)); [by right|left]. by intros ? ? ? [= ->].
      * intros ->. rewrite Hc in Ec'. injection Ec' as <-. destruct (He eq_refl) as (A1 & A2 & A3). unfold Logger.publish in Ep.
        destruct (Logger.build_tree c _ t1 _) as [[[g root] pois]|] eqn:Eb; [|done].
        destruct (get_certs _) as [|first certs] eqn:Eg; [done|].
        destruct (Logger.build_tree c _ t2 _) as [[[fk ?] ?]|]; [|done].
        destruct (Logger.send_pois _ _ _ _) as [ms1 ok1]. injection Ep as <- _ _. cbn. split_and!; auto.
        -- intros k g' . rewrite lookup_insert_Some. intros [[<- <-]|[_ Hk]]; [|by apply made_more, A2].
           exists l1, t, t1, t2, [], s, root, pois. rewrite Eg. by split_and!.
        -- intros t' t1' t2' [Ht|Ht]%elem_of_app.
           ++ destruct (decide (pad2 (Datatypes.S (Logger.n_minute t')) = pad2 (Datatypes.S (Logger.n_minute t)))) as [->|Hp].
              ** rewrite lookup_insert. eauto.
              ** rewrite lookup_insert_ne by done. by eapply A3.
           ++ apply elem_of_list_singleton in Ht. injection Ht as -> -> ->. rewrite lookup_insert. eauto.
    + split_and!; auto; cbn.
      * intros u su. rewrite lookup_delete_Some. intros [Hu Hs]. destruct (H1 u su Hs) as (cu & Ecu & B1 & B2). exists cu. split; [done|]. split; [done|].
        intros Ee. destruct (B2 Ee) as (A1 & A2 & A3). split_and!; auto.
        -- intros k g Hk. by apply made_more, A2.
        -- intros t' t1' t2' [Ht|Ht]%elem_of_app; [by eapply A3|]. apply elem_of_list_singleton in Ht. injection Ht as <- <- <- <-. congruence.
      * intros y [Hy|Hy]%elem_of_app; [by apply mail_good_more, H3|by apply Hms].
  - destruct (w_loggers W !! lg) as [s|] eqn:Es; [|apply Hkeep; auto]. destruct (H1 lg s Es) as (c' & Ec' & Ho & He).
    pose proof (HI_logger l1 (ELogPeriod lg) W lg s (Logger.end_period s) [] c' HW Ec' Es) as HL.
    destruct HL as (L1 & L2 & L3); auto.
    + intros Ee. destruct (He Ee) as (A1 & A2 & A3). split_and!; auto.
      * intros k g Hk. by apply made_more, A2.
      * intros t t1 t2 [Ht|Ht]%elem_of_app; [by eapply A3|]. by apply elem_of_list_singleton in Ht.
    + intros y Hy'. by apply elem_of_nil in Hy'.
    + split_and!; auto. cbn. intros y Hy'. apply L3. cbn. apply elem_of_app. by left.
  - destruct (sy_cas S !! ca) as [[cc' cc]|] eqn:Ec; [|apply Hkeep; auto]. destruct (w_cas W !! ca) as [s|] eqn:Es; [|apply Hkeep; auto].
    destruct (CA.issue x cc' s ds) as [[s' ?] ms] eqn:Ei.
    eapply HI_keep; eauto.
    + cbn. intros ca' sx. rewrite lookup_insert_Some. intros [[_ <-]|[_ Hx]]; eauto.
      pose proof (other_ca_step e x z cc' cc s (CA.CIssue ds) ltac:(by eapply Hoc) ltac:(by eapply H2)) as Ho. cbn [CA.ca_step] in Ho. by rewrite Ei in Ho.
    + cbn. intros y [Hy|Hy]%elem_of_app; [by left|right]. by apply elem_of_list_fmap in Hy as ([] & -> & _).
  - unfold ca_event. destruct (sy_cas S !! ca) as [[cc' cc]|] eqn:Ec; [|apply Hkeep; auto]. destruct (w_cas W !! ca) as [s|] eqn:Es; [|apply Hkeep; auto].
    apply Hca; auto. apply other_ca_step; [by eapply Hoc|by eapply H2].
  - unfold ca_event. destruct (sy_cas S !! ca) as [[cc' cc]|] eqn:Ec; [|apply Hkeep; auto]. destruct (w_cas W !! ca) as [s|] eqn:Es; [|apply Hkeep; auto].
    apply Hca; auto. apply other_ca_step; [by eapply Hoc|by eapply H2].
  - destruct (own_event ev); [by apply Hmev|apply Hkeep; auto].
  - destruct (sy_clients S !! cl); [|apply Hkeep; auto]. destruct (w_clients W !! cl); [|apply Hkeep; auto].
    destruct (w_mons W !! mon); [|apply Hkeep; auto]. destruct (_ ≫= _); [|apply Hkeep; auto].
    destruct (Client.handle_update _ _ _ _ _). apply Hkeep; auto.
Qed.

Lemma HI_all l1 l2 : l = (l1 ++ l2)%list -> HI l1 (run l1).
Proof using All.
  revert l2. induction l1 as [|ev l1 IH] using rev_ind; intros l2 El; [apply HI_init|].
  rewrite <- app_assoc in El. cbn in El. eapply HI_step; [exact El|]. by eapply IH.
Qed.

Lemma shown_made g : shown z x S W0 l g -> g_p0 g = e -> exists k, made l k g.
Proof using All.
  intros [(l1 & l2 & mon & f & url & El & Hm)|[(u & Hu)|[(mon & Hu)|(u & path & Hu)]]] Hp.
  - destruct (HI_all l1 l2 El) as (_ & _ & H3). apply H3 in Hm as [_ Hm]. destruct (Hm g eq_refl Hp) as [k Hk].
    exists k. rewrite El. by apply made_more.
  - destruct Hout as [Ho _]. by apply Ho in Hu.
  - destruct Hout as [Ho _]. by apply Ho in Hu.
  - destruct Hout as [_ Ho]. by apply Ho in Hu.
Qed.

Theorem normal_logger_safe : unconvicted e (run l).
Proof using All.
  pose proof Hid as (Hc & Hn & Hne & Hpl & Hol & Hoc & Hmon).
  apply never_convicted; [done| | |].
  - split.
    + intros g Hg Hp. destruct (shown_made g Hg Hp) as [k Hk]. apply made_shape in Hk as (t & root & size & m & -> & _). by split_and!.
    + intros g h Hg Hh Hp Hst Hi. assert (g_p0 h = e) as Hp' by (injection Hi as _ _ Hi; congruence).
      destruct (shown_made g Hg Hp) as [k Hk]. destruct (shown_made h Hh Hp') as [k' Hk'].
      rewrite (made_unique g h k k' Hk Hk'); [done|]. by injection Hi as Hi _ _.
  - intros g Hg Hp _. destruct (shown_made g Hg Hp) as [k Hk]. apply made_shape in Hk as (t & root & size & m & -> & _). cbn. by rewrite Hn.
  - intros l1 i m l2 mon f r c' u s El Hy Em Es.
    destruct (HI_all l1 (EDeliver i m :: l2) El) as (_ & _ & H3).
    apply elem_of_list_lookup_2 in Hy. apply H3 in Hy as [Hy _]. destruct (Hy eq_refl) as [-> (g & k & -> & Hk)].
    exists g. split; [done|]. split; [|done].
    apply made_shape in Hk as (t & root & size & m' & -> & _).
    destruct (Hmon mon c' u Em) as (_ & Hsc & pk & Hpk & Hok). eapply sth_verifies; eauto; by rewrite Hn.
Qed.
End honest.
