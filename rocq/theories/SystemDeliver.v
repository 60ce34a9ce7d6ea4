(** What the whole system delivers: the statements of honest loggers and CAs reach every monitor and every client. *)
From Verif Require Import Bytes Hex Json Types Crypto Verify Bitset Cert CertPool CTngExt Revocation Clock Prog Gossiper Network Overlap System SpecVerify SpecGossiper SpecNetwork SpecOverlap SpecSystem SpecSystemDetect SpecSystemDeliver SpecMonitor Duty NetworkNode OverlapNode OverlapFacts OverlapSmall SystemFacts SystemRuns SystemDetect.
From Verif Require Logger CA Monitor Client MonitorFacts MonitorMore SpecClient ClientFacts Merkle CodecFacts.
From Coq Require Import Lia.
Open Scope string_scope.

(** ** What loggers and CAs answer: nothing but tree heads and revocation objects *)
Definition plain (g : gobj) : Prop := g_type g ∈ [STH_INIT; REV_INIT; ""].
Definition plain_tbl (m : gmap string gobj) : Prop := forall k g, m !! k = Some g -> plain g.
Definition plain_logger (s : Logger.lst) : Prop := plain_tbl (Logger.l_sth s) /\ plain_tbl (Logger.l_fake s).
Definition plain_ca (s : CA.cast) : Prop := plain_tbl (CA.a_rev s) /\ plain_tbl (CA.a_fake s).

Lemma plain_at m k : plain_tbl m -> plain (Logger.obj_at m k).
Proof. intros H. unfold Logger.obj_at. destruct (m !! k) as [g|] eqn:E; [by eapply H|]. cbn. unfold plain. cbn. set_solver. Qed.
Lemma plain_insert m k g : plain_tbl m -> plain g -> plain_tbl (<[k := g]> m).
Proof. intros H Hg j o. rewrite lookup_insert_Some. intros [[_ <-]|[_ Hj]]; eauto. Qed.

Lemma plain_request_sth s m s' r : plain_logger s -> Logger.request_sth s m = (s', r) -> plain_logger s' /\ forall g, answer r = Some g -> plain g.
Proof.
  intros [H1 H2] [= <- <-]. split; [done|]. intros g. cbn [Logger.l_type Logger.l_sth Logger.l_fake Logger.set_l_count].
  pose proof (plain_at (Logger.l_sth s) (pad2 m) H1) as A. pose proof (plain_at (Logger.l_fake s) (pad2 m) H2) as B.
  destruct (Logger.l_type s) as [|p|p]; [intros [= <-]; exact A| |done].
  repeat (destruct p as [p|p|]; try done);
    repeat match goal with |- context[if ?b then _ else _] => destruct b end; cbn; intros [= <-]; assumption.
Qed.
Lemma plain_request_rev s m s' r : plain_ca s -> CA.request_rev s m = (s', r) -> plain_ca s' /\ forall g, answer r = Some g -> plain g.
Proof.
  intros [H1 H2] [= <- <-]. split; [by destruct (Z.eqb _ _)|]. intros g.
  set (s1 := if Z.eqb (CA.a_type s) 0 then s else _).
  assert (CA.a_rev s1 = CA.a_rev s /\ CA.a_fake s1 = CA.a_fake s /\ CA.a_type s1 = CA.a_type s) as (E1 & E2 & E3).
  { unfold s1. by destruct (Z.eqb _ _). }
  rewrite E1, E2, E3. clearbody s1.
  pose proof (plain_at (CA.a_rev s) (unpadded m) H1) as A. pose proof (plain_at (CA.a_fake s) (unpadded m) H2) as B.
  destruct (CA.a_type s) as [|p|p]; [intros [= <-]; exact A| |done].
  repeat (destruct p as [p|p|]; try done);
    repeat match goal with |- context[if ?b then _ else _] => destruct b end; cbn; intros [= <-]; assumption.
Qed.
Lemma plain_publish {P : prims} (c : Logger.lconf P) up s t t1 t2 s' ms ok : plain_logger s -> Logger.publish c up s t t1 t2 = (s', ms, ok) -> plain_logger s'.
Proof.
  intros [H1 H2]. unfold Logger.publish. destruct (Logger.build_tree c _ t1 _) as [[[g root] pois]|] eqn:E1; [|by intros [= <- _ _]].
  destruct (get_certs _) as [|first certs]; [by intros [= <- _ _]|].
  destruct (Logger.build_tree c _ t2 _) as [[[fk ?] ?]|] eqn:E2; [|by intros [= <- _ _]].
  destruct (Logger.send_pois _ _ _ _) as [ms1 ok1]. intros [= <- _ _].
  assert (forall certs t k g' r' p', Logger.build_tree c certs t k = Some (g', r', p') -> plain g') as Hb.
  { intros cs t' k g' r' p'. unfold Logger.build_tree. destruct (Merkle.new_tree _ _); [|done]. intros [= <- _ _]. unfold plain. cbn. set_solver. }
  split; cbn; apply plain_insert; eauto.
Qed.
Lemma plain_ca_step {P : prims} x z (c : CA.caconf P) cc s ev : plain_ca s -> plain_ca (CA.ca_step x z c cc s ev).
Proof.
  intros [H1 H2]. destruct ev as [ds|g|p|m|i|l m]; cbn.
  - done.
  - unfold CA.receive_sth. by destruct (verify cc g).
  - unfold CA.receive_poi. by destruct (get_by_ski _ _).
  - by destruct (Z.eqb _ _).
  - done.
  - split; cbn; apply plain_insert; auto; unfold plain; cbn; set_solver.
Qed.

(** ** Where the messages to monitors come from *)
Section mail.
Context {P : prims} (z : gzip) (x : CA.x509lib) (S : sysconf P) (p sec st : string) (lt : string -> Z * Z) (ct : string -> Z * Z * CA.draw * CA.draw).
Notation cfgs := (sy_gossipers S).
Notation W0 := (world_init x S p sec st lt ct).
Notation wrun := (wrun z x S).
Notation wstep := (wstep z x S).
Notation arrives := (arrives z x S W0).

Definition told_by (N : onet) (mon : string) (g : gobj) : Prop := exists u (y : gpool), on_nodes N !! u = Some y /\ ToMonitor mon g ∈ t_trace (p_st y).
Definition mail_known (N : onet) (y : mail) : Prop :=
  match y with
  | Response _ _ _ (Some g) => plain g
  | ToMon mon g => told_by N mon g
  | _ => True
  end.
Definition PI (W : world) : Prop :=
  (forall u s, w_loggers W !! u = Some s -> plain_logger s) /\ (forall u s, w_cas W !! u = Some s -> plain_ca s) /\
  (forall y, y ∈ w_mail W -> mail_known (w_net W) y).

Lemma PI_init : PI W0.
Proof.
  unfold PI. cbn. split_and!.
  - intros u s. rewrite map_lookup_imap. destruct (sy_loggers S !! u); [|done]. cbn. intros [= <-]. split; intros k g H; cbn in H; by rewrite lookup_empty in H.
  - intros u s. rewrite map_lookup_imap. destruct (sy_cas S !! u) as [c|]; [|done]. cbn. destruct (ct u) as [[[ty k] d1] d2]. intros [= <-].
    split; intros k' g H; cbn in H; by rewrite lookup_empty in H.
  - intros y H. by apply elem_of_nil in H.
Qed.

Lemma act_dom (N : onet) u f v : is_Some (on_nodes N !! v) -> is_Some (on_nodes (oact cfgs N u f) !! v).
Proof using.
  clear. intros H. unfold oact. destruct (cfgs !! u) as [c|]; [|done]. destruct (on_nodes N !! u) as [y|] eqn:E; [|done]. cbn [on_nodes].
  destruct (decide (u = v)) as [->|Hn]; [rewrite lookup_insert; by eexists|by rewrite lookup_insert_ne].
Qed.
Lemma net_step_dom (N : onet) ev v : is_Some (on_nodes N !! v) -> is_Some (on_nodes (onet_step cfgs N ev) !! v).
Proof using.
  clear. intros H. destruct ev as [u g|j|u j|u j|u q sc t]; cbn [onet_step]; try by apply act_dom.
  destruct (on_flight N !! j) as [q|]; [|done]. destruct (arrival q); [|done]. by apply act_dom.
Qed.
Lemma step_dom W ev v : is_Some (on_nodes (w_net W) !! v) -> is_Some (on_nodes (w_net (wstep W ev)) !! v).
Proof using.
  clear. intros H.
  assert (match ev with EPost _ | EPeriod _ => False | _ => True end -> is_Some (on_nodes (w_net (wstep W ev)) !! v)) as Hmost.
  { intros Hev. rewrite step_net by done. destruct ev; try done; cbn [net_part].
    - destruct (w_mail W !! i) as [[]|]; try done. by apply net_step_dom.
    - destruct (inner_event e); [|done]. by apply net_step_dom. }
  destruct ev; auto. by apply act_dom.
Qed.

Lemma told_later W ev mon g : net_reached S p sec st (w_net W) -> told_by (w_net W) mon g -> told_by (w_net (wstep W ev)) mon g.
Proof using.
  clear. intros Hr (u & y & Hy & Hin). destruct (step_dom W ev u) as [y' Hy']; [by eexists|].
  destruct (world_later z x S p sec st W ev Hr u y' Hy') as (c & y0 & Hc & Hy0 & Hs). assert (y0 = y) as -> by (pose proof (eq_trans (eq_sym Hy) Hy0) as X; by injection X).
  destruct (Hr u y Hy) as (c' & Hc' & Hrc). assert (c' = c) as -> by (pose proof (eq_trans (eq_sym Hc) Hc') as X; by injection X).
  destruct (trace_grows p sec st c y y' Hrc Hs) as [k E]. exists u, y'. split; [done|]. rewrite E. apply elem_of_app. by left.
Qed.
Lemma known_later W ev y : net_reached S p sec st (w_net W) -> mail_known (w_net W) y -> mail_known (w_net (wstep W ev)) y.
Proof using. clear. intros Hr. destruct y; cbn; auto. by apply told_later. Qed.

Lemma reports_known (N N' : onet) y : y ∈ new_reports N N' -> mail_known N' y.
Proof using.
  clear. intros H. unfold new_reports in H. apply elem_of_list_In, in_concat in H as (r & Hr & Hy). apply elem_of_list_In, elem_of_list_fmap in Hr as ([u y'] & -> & Hu).
  apply elem_of_map_to_list in Hu. apply elem_of_list_In in Hy. cbn [fst snd] in Hy.
  destruct (on_nodes N !! u) as [y0|]; [|by apply elem_of_nil in Hy].
  unfold reports in Hy. apply elem_of_list_omap in Hy as (ev & Hev & E). destruct ev; try done. injection E as <-. cbn. exists u, y'. split; [done|].
  rewrite <- (take_drop (length (t_trace (p_st y0))) (t_trace (p_st y'))). apply elem_of_app. by right.
Qed.
Lemma mon_mail_known N mon ev (W : world) y : y ∈ w_mail (mon_event z S W mon ev) -> y ∈ w_mail W \/ mail_known N y.
Proof using.
  clear. unfold mon_event. destruct (sy_monitors S !! mon) as [[c u']|]; [|by left]. destruct (w_mons W !! mon); [|by left].
  destruct (Monitor.mstep _ _ _ _) as [[s' o]|]; [|by left]. cbn. rewrite elem_of_app, elem_of_list_fmap. intros [?|(o' & -> & _)]; [by left|right]. by destruct o'.
Qed.

Lemma PI_loggers W ms u s : PI W -> plain_logger s -> (forall y, y ∈ ms -> mail_known (w_net W) y) -> PI (send (set_loggers W (<[u := s]> (w_loggers W))) ms).
Proof using.
  clear. intros (H1 & H2 & H3) Hs Hm. split_and!; cbn.
  - intros v s'. rewrite lookup_insert_Some. intros [[_ <-]|[_ ?]]; eauto.
  - done.
  - intros y [?|?]%elem_of_app; auto.
Qed.
Lemma PI_cas W ms u s : PI W -> plain_ca s -> (forall y, y ∈ ms -> mail_known (w_net W) y) -> PI (send (set_cas W (<[u := s]> (w_cas W))) ms).
Proof using.
  clear. intros (H1 & H2 & H3) Hs Hm. split_and!; cbn.
  - done.
  - intros v s'. rewrite lookup_insert_Some. intros [[_ <-]|[_ ?]]; eauto.
  - intros y [?|?]%elem_of_app; auto.
Qed.

Lemma PI_ask W mon f url m : PI W -> PI (ask W mon f url m).
Proof using.
  clear. intros H. assert (PI (send W [Response mon f url None])) as Hn.
  { destruct H as (H1 & H2 & H3). split_and!; cbn; auto. intros y [?|Hy]%elem_of_app; auto. by apply elem_of_list_singleton in Hy as ->. }
  destruct f; cbn [ask]; [| |done].
  - destruct (w_loggers W !! url) as [s|] eqn:E; [|done]. destruct (Logger.request_sth s m) as [s' r] eqn:Er.
    destruct (plain_request_sth s m s' r) as [A B]; [by eapply (proj1 H)|done|]. apply PI_loggers; auto.
    intros y Hy. apply elem_of_list_singleton in Hy as ->. cbn. destruct (answer r); auto.
  - destruct (w_cas W !! url) as [s|] eqn:E; [|done]. destruct (CA.request_rev s m) as [s' r] eqn:Er.
    destruct (plain_request_rev s m s' r) as [A B]; [by eapply (proj1 (proj2 H))|done|]. apply PI_cas; auto.
    intros y Hy. apply elem_of_list_singleton in Hy as ->. cbn. destruct (answer r); auto.
Qed.

Lemma PI_mon W mon ev : PI W -> PI (mon_event z S W mon ev).
Proof using.
  clear. intros (H1 & H2 & H3).
  assert (w_loggers (mon_event z S W mon ev) = w_loggers W /\ w_cas (mon_event z S W mon ev) = w_cas W) as [E1 E2].
  { unfold mon_event. destruct (sy_monitors S !! mon) as [[c u']|]; [|done]. destruct (w_mons W !! mon); [|done]. by destruct (Monitor.mstep _ _ _ _) as [[s' o]|]. }
  split_and!; rewrite ?E1, ?E2; auto. intros y Hy. rewrite mon_event_net. destruct (mon_mail_known (w_net W) mon ev W y Hy); auto.
Qed.

Lemma PI_less W ms : PI W -> (forall y, y ∈ ms -> y ∈ w_mail W \/ mail_known (w_net W) y) -> PI (set_mail W ms).
Proof using. clear. intros (H1 & H2 & H3) H. split_and!; auto. cbn. intros y Hy. destruct (H y Hy); auto. Qed.

Lemma PI_net W N : PI W -> (forall y, mail_known (w_net W) y -> mail_known N y) -> PI (with_net W N).
Proof using.
  clear. intros (H1 & H2 & H3) H. split_and!; auto. cbn. intros y [Hy|Hy]%elem_of_app; [auto|]. by eapply reports_known.
Qed.

Lemma PI_step W ev : net_reached S p sec st (w_net W) -> PI W -> match ev with EInject (ToMon _ _) | EInject (Response _ _ _ _) => False | _ => True end -> PI (wstep W ev).
Proof using.
  clear. intros Hr HW Hev. pose proof (known_later W ev) as HK. pose proof HW as (H1 & H2 & H3). destruct ev; cbn [System.wstep] in *.
  - destruct (w_mail W !! i) as [y|] eqn:Ey; [|done].
    assert (PI (set_mail W (delete i (w_mail W)))) as HD by (apply PI_less; [done|]; intros y' Hy'; left; by eapply in_delete).
    destruct y; cbn [receive] in *.
    + cbn [set_mail w_loggers]. destruct (w_loggers W !! l) as [s|] eqn:E; [|done].
      destruct (H1 _ _ E). destruct HD as (D1 & D2 & D3). split_and!; cbn; auto. intros v s'. rewrite lookup_insert_Some. intros [[_ <-]|[_ ?]]; eauto. by split.
    + destruct (sy_cas S !! ca) as [[? cc]|]; [|done]. cbn [set_mail w_cas]. destruct (w_cas W !! ca) as [s|] eqn:E; [|done].
      destruct (H2 _ _ E). destruct HD as (D1 & D2 & D3). split_and!; cbn; auto. intros v s'. rewrite lookup_insert_Some. intros [[_ <-]|[_ ?]]; eauto.
      unfold CA.receive_sth. by destruct (verify cc g).
    + cbn [set_mail w_cas]. destruct (w_cas W !! ca) as [s|] eqn:E; [|done].
      destruct (H2 _ _ E). destruct HD as (D1 & D2 & D3). split_and!; cbn; auto. intros v s'. rewrite lookup_insert_Some. intros [[_ <-]|[_ ?]]; eauto.
      unfold CA.receive_poi. by destruct (get_by_ski _ _).
    + by apply PI_ask.
    + by apply PI_mon.
    + apply PI_net; [done|]. intros y Hy. apply HK; done.
    + by apply PI_mon.
  - destruct (w_mail W !! i) as [y|]; [|done]. apply PI_less; [done|]. intros y' [Hy'|Hy']%elem_of_app; [left; by eapply in_delete|right].
    destruct y; cbn in Hy'; try (by apply elem_of_nil in Hy'); by apply elem_of_list_singleton in Hy' as ->.
  - apply PI_less; [done|]. intros y' [Hy'|Hy']%elem_of_app; [by left|right]. apply elem_of_list_singleton in Hy' as ->. by destruct x0.
  - split_and!; auto.
  - destruct (inner_event e); [|done]. apply PI_net; [done|]. intros y Hy. by apply HK.
  - apply PI_net; [done|]. intros y Hy. by apply HK.
  - destruct (sy_loggers S !! l) as [c|]; [|done]. destruct (w_loggers W !! l) as [s|] eqn:E; [|done].
    destruct (Logger.publish c _ s t t1 t2) as [[s' ms] ok] eqn:Ep. pose proof (plain_publish _ _ _ _ _ _ _ _ _ (H1 _ _ E) Ep) as Hs.
    assert (forall y, y ∈ map log_mail ms -> mail_known (w_net W) y) as Hm by (intros y [o [-> _]]%elem_of_list_fmap; by destruct o).
    destruct ok; [by apply PI_loggers|]. split_and!; cbn; auto.
    + intros v s0. rewrite lookup_delete_Some. intros [_ ?]. eauto.
    + intros y [?|?]%elem_of_app; auto.
  - destruct (w_loggers W !! l) as [s|] eqn:E; [|done]. split_and!; cbn; auto.
    intros v s'. rewrite lookup_insert_Some. intros [[_ <-]|[_ ?]]; eauto. destruct (H1 _ _ E). by split.
  - destruct (sy_cas S !! ca) as [[c cc]|]; [|done]. destruct (w_cas W !! ca) as [s|] eqn:E; [|done].
    pose proof (plain_ca_step x z c cc s (CA.CIssue ds) (H2 _ _ E)) as Hs. cbn [CA.ca_step] in Hs. destruct (CA.issue x c s ds) as [[s' cs] ms] eqn:Ei. cbn [fst] in Hs.
    apply PI_cas; [done|done|]. intros y [o [-> _]]%elem_of_list_fmap. by destruct o.
  - unfold ca_event. destruct (sy_cas S !! ca) as [[c cc]|]; [|done]. destruct (w_cas W !! ca) as [s|] eqn:E; [|done].
    split_and!; cbn [w_loggers w_cas w_mail w_net set_cas]; auto. intros v s'. rewrite lookup_insert_Some. intros [[_ <-]|[_ ?]]; eauto. apply plain_ca_step; eauto.
  - unfold ca_event. destruct (sy_cas S !! ca) as [[c cc]|]; [|done]. destruct (w_cas W !! ca) as [s|] eqn:E; [|done].
    split_and!; cbn [w_loggers w_cas w_mail w_net set_cas]; auto. intros v s'. rewrite lookup_insert_Some. intros [[_ <-]|[_ ?]]; eauto. apply plain_ca_step; eauto.
  - destruct (own_event e); [|done]. by apply PI_mon.
  - destruct (sy_clients S !! cl); [|done]. destruct (w_clients W !! cl); [|done]. destruct (w_mons W !! mon); [|done]. destruct (_ ≫= _); [|done].
    by destruct (Client.handle_update _ _ _ _ _).
Qed.

Lemma PI_run l : monitors_undisturbed l -> PI (wrun W0 l).
Proof using.
  induction l as [|ev l IH] using rev_ind; intros H; [apply PI_init|]. rewrite run_snoc. apply PI_step.
  - by apply gossiper_history.
  - apply IH. intros y Hy. apply H, elem_of_app. by left.
  - destruct ev as [| |y| | | | | | | | | | ]; try done. assert (EInject y ∈ (l ++ [EInject y])%list) as Hin by (apply elem_of_app; right; by left).
    specialize (H y Hin). by destruct y.
Qed.

Lemma told_run l l2 mon g : told_by (w_net (wrun W0 l)) mon g -> told_by (w_net (wrun W0 (l ++ l2))) mon g.
Proof using.
  induction l2 as [|ev l2 IH] using rev_ind; intros H; [by rewrite app_nil_r|]. rewrite app_assoc, run_snoc. apply told_later; [|auto]. by apply gossiper_history.
Qed.

Lemma arrived_known l y : monitors_undisturbed l -> arrives l y -> mail_known (w_net (wrun W0 l)) y.
Proof using.
  intros H (l1 & i & m & l2 & -> & Hi). assert (mail_known (w_net (wrun W0 l1)) y) as Hy.
  { apply PI_run; [|by eapply elem_of_list_lookup_2]. intros y' Hy'. apply H, elem_of_app. by left. }
  destruct y; auto. by apply told_run.
Qed.
End mail.

(** ** A monitor that is told nothing but statements and their aggregates *)
Section monitor.
Context {P : prims} (z : gzip) (mc : @Monitor.mconf P) (cfgs : gmap string (gconf P)) (p : string) (Gs : list gobj) (HG : valid_statements cfgs p Gs).
Definition aggregate (g x : gobj) : Prop := g ∈ Gs /\ obj_kind x = KObj (OFull (fm g)) /\ get_id x = full_id p g /\ g_p1 x = g_p1 g /\ g_p2 x = g_p2 g /\
  exists w e, cfgs !! w = Some e /\ verify (gc_crypto e) x = Accept.
Definition expected (x : gobj) : Prop := plain x \/ exists g, aggregate g x.

Lemma sound_expected x : sound cfgs p Gs x -> expected x.
Proof using HG.
  intros [H|(g & H)]; [left|right; by exists g]. destruct (vs_type _ _ _ HG x H) as ([E|E] & _); unfold plain; rewrite E; set_solver.
Qed.

Lemma agg_type g x : aggregate g x -> g_type x = full_name g.
Proof using. clear HG. intros (_ & _ & E & _). apply (f_equal i_type) in E. cbn in E. rewrite E. unfold fm, full_name. by case_decide. Qed.
Lemma expected_types x : expected x -> g_type x <> CON_INIT /\ g_type x <> ACC_FULL.
Proof using.
  clear HG. intros [H|(g & H)]; [unfold plain in H; split; intros E; rewrite E in H; set_solver|].
  rewrite (agg_type g x H). unfold full_name. by case_decide.
Qed.
Lemma same_statement g h : g ∈ Gs -> h ∈ Gs -> full_id p g = full_id p h -> g = h.
Proof using HG.
  intros Hg Hh E. unfold full_id, fm in E. destruct (vs_type _ _ _ HG g Hg) as ([T1|T1] & _); destruct (vs_type _ _ _ HG h Hh) as ([T2|T2] & _);
    rewrite T1, T2 in E; cbn in E; injection E as E; try done; apply (vs_one _ _ _ HG); auto; congruence.
Qed.

Context (ml : list Monitor.mevent) (s : Monitor.mst) (R : reached z mc ml s) (He : forall x, received ml x -> expected x).

Lemma no_proofs i : Monitor.m_con s !! i = None /\ Monitor.m_acc s !! i = None /\ Monitor.m_con_d s !! i = None /\ Monitor.m_acc_d s !! i = None.
Proof using R He.
  clear HG.
  pose proof (MonitorFacts.reached_filed z mc ml s R) as (_ & F1 & F2 & F3 & F4 & _).
  assert (forall (t : gmap gid gobj) ty, filed t [ty] -> (ty = CON_INIT \/ ty = ACC_FULL) -> (forall x, t !! i = Some x -> held s x) -> t !! i = None) as X.
  { intros t ty F Hty Hh. destruct (t !! i) as [x|] eqn:E; [|done]. exfalso. pose proof (proj1 (MonitorFacts.held_received z mc ml s x R (Hh x eq_refl))) as Hr.
    destruct (expected_types x (He x Hr)) as [T1 T2]. destruct (F i x E) as [_ T]. apply elem_of_list_singleton in T. destruct Hty; congruence. }
  split_and!; (eapply X; [eassumption|by auto|]); intros x Hx; exists i; tauto.
Qed.

Lemma table_holds g x : g ∈ Gs -> mon_table s g !! full_id p g = Some x -> aggregate g x.
Proof using HG R He.
  intros Hg Hx. assert (held s x) as Hh by (exists (full_id p g); unfold mon_table in Hx; case_decide; tauto).
  pose proof (MonitorFacts.reached_filed z mc ml s R) as (_ & _ & _ & _ & _ & F1 & F2).
  assert (full_id p g = get_id x /\ (g_type x = STH_FULL \/ g_type x = REV_FULL)) as [E T].
  { unfold mon_table in Hx. case_decide; [destruct (F1 _ _ Hx)|destruct (F2 _ _ Hx)]; split; auto; set_solver. }
  destruct (He x (proj1 (MonitorFacts.held_received z mc ml s x R Hh))) as [Hp|(h & Hh')].
  - exfalso. unfold plain in Hp. destruct T as [T|T]; rewrite T in Hp; set_solver.
  - assert (h = g) as ->; [|done]. destruct Hh' as (Hin & _ & E' & _). apply same_statement; auto. congruence.
Qed.
End monitor.

Section kept.
Context {P : prims} (z : gzip) (mc : @Monitor.mconf P) (cfgs : gmap string (gconf P)) (p : string) (Gs : list gobj) (HG : valid_statements cfgs p Gs).
Context (ml : list Monitor.mevent) (He : forall x, received ml x -> expected cfgs p Gs x) (Hw : forall m, Monitor.MWipe m ∈ ml -> pad2 m = p).

Definition has (g : gobj) (s : Monitor.mst) : Prop := (forall i, Monitor.m_con s !! i = None) /\ is_Some (mon_table s g !! full_id p g).
Lemma has_step g s e s' o : e ∈ ml -> has g s -> Monitor.mstep z mc s e = Some (s', o) -> has g s'.
Proof using He Hw.
  clear HG.
  intros Hin [H1 [y Hy]] E. apply MonitorFacts.mstep_case in E as [(E1&E2&E3&E4&E5&E6&E7)|x Hs ->| -> ->|m -> ->].
  - unfold has, mon_table. rewrite E2, E6, E7. split; [done|]. unfold mon_table in Hy. by eexists.
  - assert (expected cfgs p Gs x) as Hx by (apply He; exists e; split; [done|by eapply MonitorFacts.stores_carries]).
    destruct (expected_types cfgs p Gs x Hx) as [T1 _]. split.
    + intros i. rewrite MonitorFacts.store_con. by rewrite decide_False.
    + unfold mon_table in *. rewrite MonitorFacts.store_sth, MonitorFacts.store_rev. repeat case_decide; rewrite ?lookup_insert_is_Some'; eauto.
  - split; [done|]. exists y. unfold mon_table in *. cbn [Monitor.clean Monitor.m_sth Monitor.m_rev].
    case_decide; rewrite map_filter_lookup_Some; (split; [done|apply H1]).
  - split; [done|]. exists y. unfold mon_table in *. cbn [Monitor.wipe Monitor.m_sth Monitor.m_rev].
    case_decide; rewrite map_filter_lookup_Some; (split; [done|]); unfold Monitor.of_period; cbn; by rewrite Hw.
Qed.

Lemma kept s g full : reached z mc ml s -> Monitor.MGossip full ∈ ml -> aggregate cfgs p Gs g full ->
  exists full', mon_table s g !! full_id p g = Some full' /\ aggregate cfgs p Gs g full'.
Proof using HG He Hw.
  intros R Hin Ha. assert (is_Some (mon_table s g !! full_id p g)) as [f' Hf].
  { destruct R as [o R]. pose proof Hin as Hin'. apply elem_of_list_split in Hin' as (l1 & l2 & El). pose proof R as R'. rewrite El, MonitorFacts.mrun_app in R'.
    destruct (Monitor.mrun z mc Monitor.monitor_init l1) as [[s1 o1]|] eqn:E1; [|done]. cbn [Monitor.mrun] in R'.
    destruct (Monitor.mstep z mc s1 (Monitor.MGossip full)) as [[s2 o2]|] eqn:E2; [|done].
    destruct (Monitor.mrun z mc s2 l2) as [[s3 o3]|] eqn:E3; [|done]. injection R' as -> _.
    assert (reached z mc (l1 ++ [Monitor.MGossip full])%list s2) as R2.
    { eexists. rewrite MonitorFacts.mrun_app, E1. cbn [Monitor.mrun]. rewrite E2. reflexivity. }
    assert (has g s2) as H2.
    { split.
      - intros i. refine (proj1 (no_proofs z mc cfgs p Gs _ _ R2 _ i)). intros x (e & Hex & Hc). apply He. exists e. split; [|done]. rewrite El. rewrite elem_of_app in Hex |- *.
        destruct Hex as [?|Hex]; [by left|right]. apply elem_of_list_singleton in Hex as ->. by left.
      - pose proof (agg_type cfgs p Gs g full Ha) as Ht.
        assert (monitor_type (g_type full)) as Hm by (rewrite Ht; unfold full_name, monitor_type; case_decide; set_solver).
        pose proof (MonitorFacts.gossip_stored z mc s1 full s2 o2 Hm E2) as Hh. destruct Ha as (_ & _ & Ei & _). rewrite <- Ei.
        unfold at_home in Hh. rewrite Ht in Hh. unfold full_name in Hh. unfold mon_table. destruct (decide (g_type g = STH_INIT)).
        + destruct Hh as [[? ?]|[[? ?]|[[? ?]|[[? ?]|[[?|?] ?]]]]]; try done; eauto.
        + destruct Hh as [[? ?]|[[? ?]|[[? ?]|[[? ?]|[[?|?] ?]]]]]; try done; eauto. }
    refine (proj2 (MonitorFacts.run_inv z mc (has g) s2 l2 s o3 _ H2 E3)).
    intros t e t' o' Hine Ht Est. refine (has_step g t e t' o' _ Ht Est). rewrite El. apply elem_of_app. right. by right. }
  exists f'. split; [done|]. eapply table_holds; eauto. apply Ha.
Qed.
End kept.

(** ** A client whose update has nothing wrong in it *)
Section client.
Context {P : prims} (z : gzip) (cc : cconf P).

Lemma sths_done flag l : (forall g, g ∈ l -> Client.checked cc flag g = Accept /\ is_Some (Client.head_of g)) -> forall m, exists m', Client.take_sths cc flag m l = (m', Accept).
Proof.
  induction l as [|g l IH]; intros H m; cbn [Client.take_sths]; [by eexists|]. destruct (H g) as [Hc [y Hy]]; [by left|]. rewrite Hc, Hy. apply IH. intros h Hh. apply H. by right.
Qed.
Lemma revs_done flag l : NoDup (map g_p0 l) -> forall m,
  (forall g, g ∈ l -> Client.checked cc flag g = Accept /\ verify_srh cc (fst (srh_and_dcrv z g)) (snd (srh_and_dcrv z g)) (m !! g_p0 g) (g_period g) = Accept) ->
  exists m', Client.take_revs z cc flag m l = (m', Accept).
Proof.
  induction l as [|g l IH]; intros HN m H; cbn [Client.take_revs]; [by eexists|]. cbn in HN. apply NoDup_cons in HN as [Hn HN].
  destruct (H g) as [Hc Hv]; [by left|]. destruct (srh_and_dcrv z g) as [srh d]. cbn [fst snd] in Hv. rewrite Hc, Hv. apply IH; [done|]. intros h Hh.
  destruct (H h) as [Hc' Hv']; [by right|]. split; [done|].
  assert (g_p0 g <> g_p0 h) as Hne by (intros E; apply Hn; rewrite E; by apply elem_of_list_fmap_1).
  destruct (m !! g_p0 g) eqn:E; [done|]. by rewrite lookup_insert_ne.
Qed.

Lemma knows_verify (cfgs : gmap string (gconf P)) f x u c : knows_gossipers cfgs cc -> cfgs !! u = Some c -> obj_kind x = KObj (OFull f) ->
  verify (gc_crypto c) x = Accept -> verify cc x = Accept.
Proof.
  intros HK Hu Hx. destruct (HK u c Hu) as [E1 E2]. unfold verify. rewrite Hx. unfold verify_payload_threshold, cc_thr_verify, thr_verify.
  assert (forall id, bls_key cc id = bls_key (gc_crypto c) id) as Ek by (intros id; unfold bls_key; by rewrite E2).
  rewrite E1. destruct (ts_ids _) as [|i ids]; [done|]. by rewrite (map_ext _ _ Ek).
Qed.
End client.

Section deliver.
Context {P : prims} (z : gzip) (x : CA.x509lib) (S : sysconf P) (T : nat) (p sec st : string) (lt : string -> Z * Z) (ct : string -> Z * Z * CA.draw * CA.draw).
Notation cfgs := (sy_gossipers S).
Notation W0 := (world_init x S p sec st lt ct).
Notation wrun := (wrun z x S).
Notation arrives := (arrives z x S W0).
Context (Gs : list gobj) (l : list wevent).
Context (HN : honest_network cfgs T) (HG : valid_statements cfgs p Gs) (Hagg : agg_correct P) (Hperm : fast_perm P) (Hdeser : forall sg : bls_sig P, bls_deser (bls_ser sg) = Some sg).
Context (Hnb : forall u c, cfgs !! u = Some c -> NoDup (gc_neighbours c)) (HT : T <= 2 \/ no_fragment_twice p (w_net (wrun W0 l)) Gs).
Context (Hone : one_period l) (Hcl : clocks_in p l) (Hmu : monitors_undisturbed l) (Hst : forall w h, arrives l (ToGossip w h) -> h ∈ Gs).
Context (HQ : oquiescent (w_net (wrun W0 l))) (Hrep : reports_arrived z x S W0 l).

Lemma net_allowed : exists ol, w_net (wrun W0 l) = onet_run cfgs (onet_init cfgs p sec st) ol /\ Forall (oallowed p Gs) ol /\ forall u g, OHand u g ∈ ol <-> arrives l (ToGossip u g).
Proof using Hone Hcl Hst.
  destruct (net_history z x S W0 l Hone) as (ol & E & Ho & Hi). exists ol. split; [exact E|]. split; [|exact Ho]. apply Forall_forall. intros e Hin.
  destruct e as [u g|j|u j|u j|u q sc t]; cbn; try done.
  - apply (Hst u), Ho, Hin.
  - apply (Hcl u q sc t), Hi; done.
Qed.

Lemma told_sound mon h : told_by (w_net (wrun W0 l)) mon h -> sound cfgs p Gs h.
Proof using HN HG Hagg Hperm Hdeser Hone Hcl Hst.
  intros (u & y & Hy & Hin). destruct net_allowed as (ol & E & Ha & _). rewrite E in Hy.
  destruct (run_OI cfgs T p Gs HN HG Hagg Hperm Hdeser 0 (λ _, 0) [] _ ol (OI_init cfgs T p Gs HN HG Hagg Hperm Hdeser sec st) Ha) as (f & hd & HI & _).
  destruct (proj1 (oi_dom _ _ _ _ _ _ _ _ HI u)) as [c Hc]; [by eexists|].
  pose proof (pg_inv _ _ _ _ _ _ _ _ _ _ _ _ _ (oi_node _ _ _ _ _ _ _ _ HI u c y Hc Hy)) as HJ. exact (j_mon _ _ _ _ _ HJ mon h Hin).
Qed.

Lemma gossiped u g w c : arrives l (ToGossip u g) -> is_Some (cfgs !! u) -> cfgs !! w = Some c ->
  exists full, arrives l (ToMon (gc_owner c) full) /\ aggregate cfgs p Gs g full.
Proof using All.
  intros Ha Hu Hw. destruct net_allowed as (ol & E & Hal & Ho). pose proof HQ as HQ'. rewrite E in HQ'.
  assert (exists (y : gpool) full, on_nodes (onet_run cfgs (onet_init cfgs p sec st) ol) !! w = Some y /\
    full_table (p_st y) g !! mkgid p (full_name g) (g_p0 g) = Some full /\ ToMonitor (gc_owner c) full ∈ t_trace (p_st y)) as (y & full & Hy & Hf & Hin).
  { destruct HT as [HT'|HT'].
    - destruct (overlap_small_threshold cfgs T p Gs HN HG Hagg Hperm Hdeser Hnb HT' sec st ol Hal HQ' u g (proj2 (Ho u g) Ha) Hu w c Hw) as (y & full & ? & ? & _ & _ & _ & ?). eauto.
    - rewrite E in HT'. destruct (overlap_all_full cfgs T p Gs HN HG Hagg Hperm Hdeser sec st ol Hal HQ' u g (proj2 (Ho u g) Ha) Hu
        (λ v y Hy, HT' v y g Hy (Hst u g Ha)) w c Hw) as (y & full & ? & ? & _ & _ & _ & ?). eauto. }
  exists full. split.
  { rewrite <- E in Hy. destruct (reported z x S W0 p sec st l w y (gc_owner c) full eq_refl Hy Hin) as [Hm|[?|Hm]]; [|done|]; by apply Hrep in Hm. }
  assert (get_id full = full_id p g /\ g_type full = full_type (fm g)) as [Ei Et].
  { destruct (run_OI cfgs T p Gs HN HG Hagg Hperm Hdeser 0 (λ _, 0) [] _ ol (OI_init cfgs T p Gs HN HG Hagg Hperm Hdeser sec st) Hal) as (f & hd & HI & _).
    pose proof (oi_node _ _ _ _ _ _ _ _ HI w c y Hw Hy) as Hp. destruct (proj1 (pg_ok _ _ _ _ _ _ _ _ _ _ _ _ _ Hp)) as (H1 & _).
    assert (get_tbl (p_st y) (OFull (fm g)) !! full_id p g = Some full) as Hf' by (unfold full_id, fm; unfold full_table, full_name in Hf; by destruct (decide _)).
    destruct (H1 _ _ _ Hf') as (_ & A & B). by split. }
  assert (sound cfgs p Gs full) as [Hg|(h & Hh & R)].
  { apply (told_sound (gc_owner c)). exists w, y. rewrite E. by split. }
  - exfalso. destruct (vs_type _ _ _ HG full Hg) as ([X|X] & _); rewrite X in Et; by destruct (fm g).
  - assert (h = g) as ->; [|by split]. destruct R as (_ & R & _). apply (same_statement cfgs p Gs HG); auto; [by eapply Hst|congruence].
Qed.

Section one_monitor.
Context (w : string) (c : gconf P) (mc : @Monitor.mconf P) (mu : string) (s : Monitor.mst).
Notation mon := (gc_owner c).
Context (Hw : cfgs !! w = Some c) (Hm : sy_monitors S !! mon = Some (mc, mu)) (Hs : w_mons (wrun W0 l) !! mon = Some s) (Hwipe : forall m, EMonitor mon (Monitor.MWipe m) ∈ l -> pad2 m = p).

Lemma mon_run : exists ml, reached z mc ml s /\ (forall y, received ml y -> expected cfgs p Gs y) /\ (forall m, Monitor.MWipe m ∈ ml -> pad2 m = p) /\
  (forall g, Monitor.MGossip g ∈ ml <-> arrives l (ToMon mon g)).
Proof using All.
  destruct (mon_history z x S W0 mon mc mu l s Hm) as (ml & R & A1 & A2 & A3); [left; cbn; by rewrite lookup_fmap, Hm|exact Hs|].
  exists ml. split; [done|]. split_and!; [|intros m Hin; by apply Hwipe, A2|done].
  intros y (e & Hin & [->|(f & url & ->)]).
  - apply A1, (arrived_known z x S p sec st lt ct l _ Hmu) in Hin. cbn in Hin. eapply sound_expected; [exact HG|]. by eapply told_sound.
  - apply A3, (arrived_known z x S p sec st lt ct l _ Hmu) in Hin. by left.
Qed.

Lemma monitor_gets u g : arrives l (ToGossip u g) -> is_Some (cfgs !! u) ->
  exists full, mon_table s g !! full_id p g = Some full /\ aggregate cfgs p Gs g full.
Proof using All.
  intros Ha Hu. destruct (gossiped u g w c Ha Hu Hw) as (full & Harr & Hagg'). destruct mon_run as (ml & R & He & Hw' & A1).
  eapply (kept z mc cfgs p Gs HG ml He Hw' s g full R); [by apply A1|done].
Qed.

Context (m : nat) (cl : string) (cc : cconf P) (sc : Client.clst) (flag : bool).
Context (Hp : p = pad2 m) (Hcc : sy_clients S !! cl = Some cc) (HK : knows_gossipers cfgs cc) (Hsc : w_clients (wrun W0 l) !! cl = Some sc) (Hidle : SpecClient.idle sc).
Context (Huse : forall h, h ∈ Gs -> usable z cc sc h).

Lemma agg_fields g f : aggregate cfgs p Gs g f -> g_p0 f = g_p0 g /\ g_period f = p /\ g_period g = p /\ g_type f = full_name g /\ Client.head_of f = Client.head_of g /\
  srh_and_dcrv z f = srh_and_dcrv z g /\ Client.checked cc flag f = Accept.
Proof using HG HK.
  intros H. pose proof (agg_type _ _ _ _ _ H) as Ht. destruct H as (Hg & Hk & Hi & E1 & E2 & v & e & Hv & Hver).
  destruct (vs_type _ _ _ HG g Hg) as (_ & Hpg & _). split_and!; auto.
  - apply (f_equal i_entity) in Hi. exact Hi.
  - apply (f_equal i_period) in Hi. exact Hi.
  - unfold Client.head_of. by rewrite E1.
  - unfold srh_and_dcrv. by rewrite E2.
  - unfold Client.checked. destruct flag; [|done]. by eapply knows_verify.
Qed.

Lemma client_gets : exists s', w_clients (wrun W0 (l ++ period_end_and_load mon m cl ("Period_" ++ itoa (Z.of_nat m - Monitor.mc_offset mc)) flag)) !! cl = Some s' /\
  SpecClient.idle s' /\ (forall e, SpecClient.convicted s' e <-> SpecClient.convicted sc e) /\ (forall ca v, Client.cl_crv sc !! ca = Some v -> Client.cl_crv s' !! ca = Some v) /\
  forall u g, arrives l (ToGossip u g) -> is_Some (cfgs !! u) ->
    (g_type g = STH_INIT -> forall y, Client.head_of g = Some y -> Client.cl_sth s' !! (g_p0 g ++ "@" ++ p) = Some (sth_root y)) /\
    (g_type g = REV_INIT -> Client.cl_crv s' !! g_p0 g = Some (default (snd (srh_and_dcrv z g)) (Client.cl_crv sc !! g_p0 g))).
Proof using All.
  destruct mon_run as (ml & R & He & Hw' & A1).
  destruct (MonitorMore.period_update z mc ml s m R) as (up & s1 & [o1 R1] & _ & F & _ & _ & Hnd & Hcont & Hu1 & Hu2 & Hu3 & Hu4).
  assert (forall i, Monitor.m_con s !! i = None /\ Monitor.m_acc s !! i = None /\ Monitor.m_con_d s !! i = None /\ Monitor.m_acc_d s !! i = None) as Hno by (eapply no_proofs; eauto).
  assert (Monitor.u_cons up = []) as Ec.
  { destruct (Monitor.u_cons up) as [|h t]; [done|]. exfalso. destruct (proj1 (Hu3 h)) as [E _]; [by left|]. rewrite (proj1 (proj2 (proj2 (Hno _)))) in E. done. }
  assert (Monitor.u_accs up = []) as Ea.
  { destruct (Monitor.u_accs up) as [|h t]; [done|]. exfalso. destruct (proj1 (Hu4 h)) as [E _]; [by left|]. rewrite (proj2 (proj2 (proj2 (Hno _)))) in E. done. }
  assert (forall h, h ∈ Monitor.u_sths up -> exists g, aggregate cfgs p Gs g h /\ g_type g = STH_INIT) as Hsths.
  { intros h Hh. destruct (Hcont h) as (_ & _ & Hr); [apply elem_of_app; by left|]. apply Hu1 in Hh as (Hh & _).
    pose proof (MonitorFacts.reached_filed z mc ml s R) as (_ & _ & _ & _ & _ & F1 & _). destruct (F1 _ _ Hh) as [_ Ht]. apply elem_of_list_singleton in Ht.
    destruct (He h Hr) as [Hpl|(g & Hg)]; [exfalso; unfold plain in Hpl; rewrite Ht in Hpl; set_solver|]. exists g. split; [done|].
    pose proof (agg_type _ _ _ _ _ Hg) as Ht'. rewrite Ht in Ht'. unfold full_name in Ht'. by case_decide. }
  assert (forall h, h ∈ Monitor.u_revs up -> exists g, aggregate cfgs p Gs g h /\ g_type g = REV_INIT) as Hrevs.
  { intros h Hh. destruct (Hcont h) as (_ & _ & Hr); [apply elem_of_app; right; apply elem_of_app; by left|]. apply Hu2 in Hh as (Hh & _).
    pose proof (MonitorFacts.reached_filed z mc ml s R) as (_ & _ & _ & _ & _ & _ & F2). destruct (F2 _ _ Hh) as [_ Ht]. apply elem_of_list_singleton in Ht.
    destruct (He h Hr) as [Hpl|(g & Hg)]; [exfalso; unfold plain in Hpl; rewrite Ht in Hpl; set_solver|]. exists g. split; [done|].
    pose proof (agg_type _ _ _ _ _ Hg) as Ht'. rewrite Ht in Ht'. unfold full_name in Ht'. case_decide; [done|].
    by destruct (vs_type _ _ _ HG g (proj1 Hg)) as ([?|?] & _). }
  assert (NoDup (map get_id (Monitor.u_sths up)) /\ NoDup (map get_id (Monitor.u_revs up))) as [Hn1 Hn2].
  { unfold contents in Hnd. rewrite !map_app in Hnd. apply NoDup_app in Hnd as (N1 & _ & Hnd). by apply NoDup_app in Hnd as (N2 & _ & _). }
  assert (NoDup (map g_p0 (Monitor.u_revs up))) as Hn2'.
  { revert Hn2. generalize Hrevs. clear. intros Hrevs. induction (Monitor.u_revs up) as [|h t IH]; cbn; [constructor|]. intros [Hn Hnd]%NoDup_cons.
    constructor; [|apply IH; [intros; apply Hrevs; by right|done]]. intros (k & E & Hk)%elem_of_list_fmap. apply Hn. apply elem_of_list_fmap. exists k. split; [|done].
    destruct (Hrevs h) as (g1 & (_ & _ & I1 & _) & T1); [by left|]. destruct (Hrevs k) as (g2 & (_ & _ & I2 & _) & T2); [by right|].
    rewrite I1, I2. unfold full_id, fm. rewrite T1, T2. f_equal. apply (f_equal i_entity) in I1, I2. cbn in I1, I2. congruence. }
  destruct (revs_done z cc flag (Monitor.u_revs up) Hn2' (Client.cl_crv sc)) as [crv Hcrv].
  { intros h Hh. destruct (Hrevs h Hh) as (g & Hg & Ht). destruct (agg_fields g h Hg) as (P0 & Pp & Pg & _ & _ & Hsr & Hck). split; [done|].
    destruct (Huse g (proj1 Hg)) as [_ Hv]. rewrite Hsr, P0, Pp, <- Pg. by apply Hv. }
  destruct (sths_done cc flag (Monitor.u_sths up)) with (m := Client.cl_sth sc) as [sth Hsth].
  { intros h Hh. destruct (Hsths h Hh) as (g & Hg & Ht). destruct (agg_fields g h Hg) as (P0 & Pp & Pg & _ & Hhd & _ & Hck). split; [done|].
    destruct (Huse g (proj1 Hg)) as [Hv _]. rewrite Hhd. by apply Hv. }
  set (s' := Client.mkcl sth crv (Client.cl_pom sc) false false false).
  assert (Client.handle_update z cc sc flag up = (s', Client.Applied)) as Hh.
  { destruct Hidle as (L1 & L2 & L3). unfold Client.handle_update. rewrite L1, Hcrv, L2, Hsth, L3, Ec, Ea. reflexivity. }
  exists s'. split; [|split; [done|split; [done|split; [intros ca v Hv; by eapply ClientFacts.vector_kept|]]]].
  - destruct R as [o R]. rewrite MonitorFacts.mrun_app, R in R1. destruct (Monitor.mrun z mc s (period_end m)) as [[s2 o2]|] eqn:E2; [|done]. injection R1 as -> _.
    pose proof (own_steps z x S (wrun W0 l) mon mc mu s m s1 o2 Hm Hs E2) as S5.
    rewrite wrun_app. unfold period_end_and_load.
    assert (w_clients (wrun (wrun W0 l) [EMonitor mon Monitor.MClean; EMonitor mon (Monitor.MWipe m); EMonitor mon (Monitor.MPublish m)]) = w_clients (wrun W0 l)) as Ecl.
    { cbn [System.wrun fold_left]. assert (forall W ev, w_clients (wstep z x S W (EMonitor mon ev)) = w_clients W) as Hstep.
      { intros W ev. cbn [System.wstep]. destruct (own_event ev); [|done]. unfold mon_event. destruct (sy_monitors S !! mon) as [[c' u']|]; [|done]. destruct (w_mons W !! mon); [|done].
        by destruct (Monitor.mstep _ _ _ _) as [[s0 o0]|]. }
      unfold System.wrun. cbn [fold_left]. by rewrite !Hstep. }
    change [EMonitor mon Monitor.MClean; EMonitor mon (Monitor.MWipe m); EMonitor mon (Monitor.MPublish m); ELoad cl mon ("Period_" ++ itoa (Z.of_nat m - Monitor.mc_offset mc)) flag]
      with ([EMonitor mon Monitor.MClean; EMonitor mon (Monitor.MWipe m); EMonitor mon (Monitor.MPublish m)] ++ [ELoad cl mon ("Period_" ++ itoa (Z.of_nat m - Monitor.mc_offset mc)) flag])%list.
    rewrite wrun_app. revert S5 Ecl. generalize (wrun (wrun W0 l) [EMonitor mon Monitor.MClean; EMonitor mon (Monitor.MWipe m); EMonitor mon (Monitor.MPublish m)]). intros W5 S5 Ecl.
    unfold System.wrun. cbn [fold_left System.wstep]. rewrite Hcc, Ecl, Hsc, S5.
    assert (Monitor.m_files s1 !! ("Period_" ++ itoa (Z.of_nat m - Monitor.mc_offset mc)) ≫= Monitor.update_unmarshal = Some up) as Eb by (rewrite F; exact (MonitorMore.update_roundtrip up)).
    rewrite Eb, Hh. cbn. by rewrite lookup_insert.
  - intros u g Ha Hu. destruct (monitor_gets u g Ha Hu) as (full & Hf & Hagg'). pose proof (agg_fields g full Hagg') as (P0 & Pp & Pg & Pt & Phd & Psr & _).
    assert (get_id full = full_id p g) as Hid by apply Hagg'. split.
    + intros Ht y Hy. assert (full ∈ Monitor.u_sths up) as Hin.
      { apply Hu1. split_and!; [|congruence|apply Hno]. rewrite Hid. unfold mon_table in Hf. by rewrite decide_True in Hf. }
      apply elem_of_list_split in Hin as (l1 & l2 & El). rewrite <- P0, <- Pp.
      eapply ClientFacts.head_recorded; [exact Hh|exact El|congruence|]. intros k Hk E.
      rewrite El, map_app in Hn1. apply NoDup_app in Hn1 as (_ & _ & [Hn _]%NoDup_cons). apply Hn. apply elem_of_list_fmap. exists k. split; [|done].
      destruct (Hsths k) as (g2 & Hg2 & T2); [rewrite El; apply elem_of_app; right; by right|]. destruct (agg_fields g2 k Hg2) as (Q0 & Qp & _).
      rewrite Pp, Qp in E. assert (g_p0 k = g_p0 full) as E0 by (eapply CodecFacts.app_inj_r; exact E).
      rewrite Hid. destruct Hg2 as (_ & _ & I2 & _). fold (get_id k). rewrite I2. unfold full_id, fm. rewrite T2, Ht. cbn. congruence.
    + intros Ht. destruct (Client.cl_crv sc !! g_p0 g) as [v|] eqn:Ev; cbn [default].
      { by eapply ClientFacts.vector_kept. }
      assert (full ∈ Monitor.u_revs up) as Hin.
      { apply Hu2. split_and!; [|congruence|apply Hno]. rewrite Hid. unfold mon_table in Hf. rewrite decide_False in Hf; [done|]. by rewrite Ht. }
      apply elem_of_list_split in Hin as (l1 & l2 & El). rewrite <- P0, <- Psr.
      eapply ClientFacts.first_delta_applied; [exact Hh|exact El|by rewrite P0|]. intros k Hk E.
      rewrite El, map_app in Hn2'. apply NoDup_app in Hn2' as (_ & Hd & _). apply (Hd (g_p0 k)); [by apply elem_of_list_fmap_1|]. rewrite E. by left.
Qed.
End one_monitor.
End deliver.

(** Every statement handed to a gossiper reaches every monitor and every client. *)
Theorem statements_delivered {P : prims} (z : gzip) (x : CA.x509lib) (S : sysconf P) T p sec st lt ct Gs l :
  let W0 := world_init x S p sec st lt ct in let cfgs := sy_gossipers S in
  honest_network cfgs T -> valid_statements cfgs p Gs -> agg_correct P -> fast_perm P -> (forall sg : bls_sig P, bls_deser (bls_ser sg) = Some sg) ->
  (forall u c, cfgs !! u = Some c -> NoDup (gc_neighbours c)) -> T <= 2 \/ no_fragment_twice p (w_net (wrun z x S W0 l)) Gs ->
  one_period l -> clocks_in p l -> monitors_undisturbed l -> (forall w h, arrives z x S W0 l (ToGossip w h) -> h ∈ Gs) ->
  oquiescent (w_net (wrun z x S W0 l)) -> reports_arrived z x S W0 l ->
  forall w c mc mu s, cfgs !! w = Some c -> sy_monitors S !! gc_owner c = Some (mc, mu) -> w_mons (wrun z x S W0 l) !! gc_owner c = Some s ->
  (forall m, EMonitor (gc_owner c) (Monitor.MWipe m) ∈ l -> pad2 m = p) ->
  (forall i, Monitor.m_con s !! i = None /\ Monitor.m_acc s !! i = None) /\
  (forall u g, arrives z x S W0 l (ToGossip u g) -> is_Some (cfgs !! u) ->
     exists full, mon_table s g !! mkgid p (full_name g) (g_p0 g) = Some full /\ g_type full = full_name g /\ g_p1 full = g_p1 g /\ g_p2 full = g_p2 g /\
       forall cc, knows_gossipers cfgs cc -> verify cc full = Accept) /\
  forall m cl cc sc flag, p = pad2 m -> sy_clients S !! cl = Some cc -> knows_gossipers cfgs cc -> w_clients (wrun z x S W0 l) !! cl = Some sc -> SpecClient.idle sc ->
    (forall h, h ∈ Gs -> usable z cc sc h) ->
    exists s', w_clients (wrun z x S W0 (l ++ period_end_and_load (gc_owner c) m cl ("Period_" ++ itoa (Z.of_nat m - Monitor.mc_offset mc)) flag)) !! cl = Some s' /\
      SpecClient.idle s' /\ (forall e, SpecClient.convicted s' e <-> SpecClient.convicted sc e) /\
      forall u g, arrives z x S W0 l (ToGossip u g) -> is_Some (cfgs !! u) ->
        (g_type g = STH_INIT -> forall y, Client.head_of g = Some y -> Client.cl_sth s' !! (g_p0 g ++ "@" ++ p) = Some (sth_root y)) /\
        (g_type g = REV_INIT -> Client.cl_crv s' !! g_p0 g = Some (default (snd (srh_and_dcrv z g)) (Client.cl_crv sc !! g_p0 g))).
Proof.
  intros W0 cfgs HN HG Hagg Hperm Hdeser Hnb HT Hone Hcl Hmu Hst HQ Hrep w c mc mu s Hw Hm Hs Hwipe. split_and!.
  - intros i. destruct (mon_run z x S T p sec st lt ct Gs l HN HG Hagg Hperm Hdeser Hnb HT Hone Hcl Hmu Hst HQ Hrep w c mc mu s Hw Hm Hs Hwipe) as (ml & R & He & _).
    destruct (no_proofs z mc (sy_gossipers S) p Gs ml s R He i) as (? & ? & _). done.
  - intros u g Ha Hu.
    destruct (monitor_gets z x S T p sec st lt ct Gs l HN HG Hagg Hperm Hdeser Hnb HT Hone Hcl Hmu Hst HQ Hrep w c mc mu s Hw Hm Hs Hwipe u g Ha Hu) as (full & Hf & Hagg').
    exists full. split; [|split; [by eapply agg_type|]].
    + unfold full_id, fm in Hf. unfold full_name. by destruct (decide _).
    + destruct Hagg' as (_ & Hk & _ & E1 & E2 & v & e & Hv & Hver). split; [done|]. split; [done|]. intros cc HK. by eapply knows_verify.
  - intros m cl cc sc flag Hp Hcc HK Hsc Hid Huse.
    destruct (client_gets z x S T p sec st lt ct Gs l HN HG Hagg Hperm Hdeser Hnb HT Hone Hcl Hmu Hst HQ Hrep w c mc mu s Hw Hm Hs Hwipe m cl cc sc flag Hp Hcc HK Hsc Hid Huse) as (s' & H1 & H2 & H3 & _ & H4).
    exists s'. split; [exact H1|]. split; [exact H2|]. split; [exact H3|exact H4].
Qed.

(** A certificate that relies on one of the delivered heads is accepted by every client. *)
Theorem certificate_accepted {P : prims} (z : gzip) (x : CA.x509lib) (S : sysconf P) T p sec st lt ct Gs l :
  let W0 := world_init x S p sec st lt ct in let cfgs := sy_gossipers S in
  honest_network cfgs T -> valid_statements cfgs p Gs -> agg_correct P -> fast_perm P -> (forall sg : bls_sig P, bls_deser (bls_ser sg) = Some sg) ->
  (forall u c, cfgs !! u = Some c -> NoDup (gc_neighbours c)) -> T <= 2 \/ no_fragment_twice p (w_net (wrun z x S W0 l)) Gs -> (forall m, h_sha256 P m <> "") ->
  one_period l -> clocks_in p l -> monitors_undisturbed l -> (forall w h, arrives z x S W0 l (ToGossip w h) -> h ∈ Gs) ->
  oquiescent (w_net (wrun z x S W0 l)) -> reports_arrived z x S W0 l ->
  forall w c mc mu s, cfgs !! w = Some c -> sy_monitors S !! gc_owner c = Some (mc, mu) -> w_mons (wrun z x S W0 l) !! gc_owner c = Some s ->
  (forall m, EMonitor (gc_owner c) (Monitor.MWipe m) ∈ l -> pad2 m = p) ->
  forall m cl cc sc flag, p = pad2 m -> sy_clients S !! cl = Some cc -> knows_gossipers cfgs cc -> w_clients (wrun z x S W0 l) !! cl = Some sc -> SpecClient.idle sc ->
  (forall h, h ∈ Gs -> usable z cc sc h) ->
  forall crt, (forall i, i ∈ SpecClient.relied_on crt -> verify cc (li_sth i) <> Panics) ->
  (exists i u, i ∈ SpecClient.relied_on crt /\ arrives z x S W0 l (ToGossip u (li_sth i)) /\ is_Some (cfgs !! u) /\ g_type (li_sth i) = STH_INIT /\
     ~ SpecClient.convicted sc (g_signer (li_sth i)) /\ verify cc (li_sth i) = Accept /\ proves_inclusion (P := P) crt i) ->
  (exists v, ~ SpecClient.revoked_in v crt /\
     (Client.cl_crv sc !! c_issuer_cn crt = Some v \/
      Client.cl_crv sc !! c_issuer_cn crt = None /\ exists u r, arrives z x S W0 l (ToGossip u r) /\ is_Some (cfgs !! u) /\ g_type r = REV_INIT /\ g_p0 r = c_issuer_cn crt /\ v = snd (srh_and_dcrv z r))) ->
  exists s', w_clients (wrun z x S W0 (l ++ period_end_and_load (gc_owner c) m cl ("Period_" ++ itoa (Z.of_nat m - Monitor.mc_offset mc)) flag)) !! cl = Some s' /\
    Client.check_certificate cc s' crt = Accept.
Proof.
  intros W0 cfgs HN HG Hagg Hperm Hdeser Hnb HT Hh Hone Hcl Hmu Hst HQ Hrep w c mc mu s Hw Hm Hs Hwipe m cl cc sc flag Hp Hcc HK Hsc Hid Huse crt Hpan
    (i & u & Hi & Ha & Hu & Ht & Hnc & Hv & y & q & Hy & Hq & Hpr) (v & Hnr & Hv').
  destruct (client_gets z x S T p sec st lt ct Gs l HN HG Hagg Hperm Hdeser Hnb HT Hone Hcl Hmu Hst HQ Hrep w c mc mu s Hw Hm Hs Hwipe m cl cc sc flag Hp Hcc HK Hsc Hid Huse) as (s' & H1 & H2 & H3 & H5 & H4).
  exists s'. split; [exact H1|]. apply ClientFacts.verdict_accept; [done|]. split_and!.
  - intros j Hj. right. by apply Hpan.
  - exists i. split; [done|]. split; [by rewrite H3|]. split; [done|]. exists y, q. split_and!; auto.
    destruct (H4 u (li_sth i) Ha Hu) as [A _]. destruct (vs_type _ _ _ HG (li_sth i) (Hst u _ Ha)) as (_ & Epp & _). rewrite Epp. by apply A.
  - exists v. split; [|done]. destruct Hv' as [Hv'|(Hnone & u' & r & Hr & Hu' & Htr & Hp0 & ->)]; [by apply H5|].
    destruct (H4 u' r Hr Hu') as [_ B]. rewrite Hp0 in B. rewrite Hnone in B. by apply B.
Qed.
