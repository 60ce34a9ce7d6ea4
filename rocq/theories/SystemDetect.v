(** What the whole system finds out: conflicting statements reach every gossiper, every monitor, and every client. *)
From Verif Require Import Bytes Hex Json Types Crypto Verify Bitset Cert CertPool CTngExt Revocation Clock Prog Gossiper Network Overlap System SpecVerify SpecGossiper SpecNetwork SpecOverlap SpecDetect SpecOverlapDetect SpecSystem SpecSystemDetect SpecMonitor OverlapDetectNet SystemFacts SystemRuns.
From Verif Require Logger CA Monitor Client MonitorFacts MonitorMore SpecClient ClientFacts.
From Coq Require Import Lia.
Open Scope string_scope.

Section monitor.
Context {P : prims} (z : gzip) (c : @Monitor.mconf P).

(** Until a monitor wipes its storage, the proofs it will publish are those it knows. *)
Lemma unwiped l s : reached z c l s -> (forall m, Monitor.MWipe m ∉ l) -> Monitor.m_con_d s = Monitor.m_con s /\ Monitor.m_acc_d s = Monitor.m_acc s.
Proof.
  intros [o R] H.
  apply (MonitorFacts.run_inv z c (λ s, Monitor.m_con_d s = Monitor.m_con s /\ Monitor.m_acc_d s = Monitor.m_acc s) Monitor.monitor_init l s o); [|done|done].
  intros s1 e s2 o2 He [I1 I2] E. apply MonitorFacts.mstep_case in E as [(E1&E2&E3&E4&E5&E6&E7)|g Hs ->|_ ->|m -> ->].
  - by rewrite E2, E3, E4, E5.
  - rewrite MonitorFacts.store_con, MonitorFacts.store_con_d, MonitorFacts.store_acc, MonitorFacts.store_acc_d. split; case_decide; congruence.
  - done.
  - by apply H in He.
Qed.

Lemma told l s g : reached z c l s -> Monitor.MGossip g ∈ l -> g_type g = CON_INIT -> exists g', Monitor.m_con s !! get_id g = Some g' /\ g_type g' = CON_INIT /\ get_id g' = get_id g.
Proof.
  intros R Hin Ht. pose proof R as [o R']. apply elem_of_list_split in Hin as (l1 & l2 & ->). rewrite MonitorFacts.mrun_app in R'.
  destruct (Monitor.mrun z c Monitor.monitor_init l1) as [[s1 o1]|] eqn:E1; [|done]. cbn [Monitor.mrun] in R'.
  destruct (Monitor.mstep z c s1 (Monitor.MGossip g)) as [[s2 o2]|] eqn:E2; [|done].
  destruct (Monitor.mrun z c s2 l2) as [[s3 o3]|] eqn:E3; [|done]. injection R' as -> _.
  assert (monitor_type (g_type g)) as Hm by (rewrite Ht; unfold monitor_type; set_solver).
  pose proof (MonitorFacts.gossip_stored z c s1 g s2 o2 Hm E2) as Hh.
  assert (Monitor.m_con s2 !! get_id g = Some g) as Hg.
  { unfold at_home in Hh. rewrite Ht in Hh. destruct Hh as [[? ?]|[[? ?]|[[? ?]|[[? ?]|[? ?]]]]]; try done; set_solver. }
  destruct (MonitorFacts.con_kept z c s2 l2 s o3 _ _ E3 Hg) as (g' & Hg' & _). exists g'. split; [done|].
  pose proof (MonitorFacts.reached_filed z c _ s R) as (_ & F & _). destruct (F _ _ Hg') as [-> T]. split; [set_solver|done].
Qed.
End monitor.

Lemma stuck_busy {P : prims} (z : gzip) (c : cconf P) s flag u s' : Client.handle_update z c s flag u = (s', Client.Stuck) -> ~ SpecClient.idle s'.
Proof. intros H%ClientFacts.handle_inv. unfold SpecClient.idle. remember Client.Stuck as o. destruct H; cbn; intros (? & ? & ?); congruence. Qed.

Section detect.
Context {P : prims} (z : gzip) (x : CA.x509lib) (S : sysconf P) (HN : connected (sy_gossipers S)).
Context (p sec st : string) (lt : string -> Z * Z) (ct : string -> Z * Z * CA.draw * CA.draw).
Notation cfgs := (sy_gossipers S).
Notation W0 := (world_init x S p sec st lt ct).
Notation wrun := (wrun z x S).
Notation arrives := (arrives z x S W0).

Lemma gossipers_find_out a b l u v : equivocation cfgs a b -> one_period l ->
  (forall w g, arrives l (ToGossip w g) -> harmless cfgs a g) ->
  one_version_given z x S W0 l a ->
  arrives l (ToGossip u a) -> arrives l (ToGossip v b) -> is_Some (cfgs !! u) -> is_Some (cfgs !! v) ->
  oquiescent (w_net (wrun W0 l)) -> reports_arrived z x S W0 l ->
  forall w c, cfgs !! w = Some c -> exists (y : gpool) con, on_nodes (w_net (wrun W0 l)) !! w = Some y /\ g_p0 a ∈ t_black (p_st y) /\
    t_con_init (p_st y) !! get_id con = Some con /\ g_type con = CON_INIT /\ g_p0 con = g_p0 a /\ verify (gc_crypto c) con = Accept /\
    arrives l (ToMon (gc_owner c) con).
Proof.
  intros He Hl Hh H1 Ha Hb Hu Hv Hq Hr w c Hw. destruct (net_history z x S W0 l Hl) as (ol & E & Ho & _).
  change (w_net W0) with (onet_init cfgs p sec st) in E.
  destruct (overlap_convicts cfgs HN p sec st a b ol u v) with (w := w) (c := c) as (y & con & C1 & C2 & C3 & C4 & C5 & C6 & C7); auto.
  - intros w' g Hg. apply (Hh w'), Ho, Hg.
  - intros w' g h Hg Hh'. apply (H1 w'); by apply Ho.
  - by apply Ho.
  - by apply Ho.
  - rewrite <- E. exact Hq.
  - exists y, con. rewrite <- E in C1. split_and!; auto.
    destruct (reported z x S W0 p sec st l w y (gc_owner c) con eq_refl C1 C7) as [Hm|[?|Hm]]; [|done|]; by apply Hr in Hm.
Qed.

Lemma monitor_finds_out mon mc u l s con : sy_monitors S !! mon = Some (mc, u) -> w_mons (wrun W0 l) !! mon = Some s -> arrives l (ToMon mon con) -> g_type con = CON_INIT ->
  exists con', Monitor.m_con s !! get_id con = Some con' /\ g_type con' = CON_INIT /\ get_id con' = get_id con.
Proof.
  intros Hm Hs Ha Ht. destruct (mon_history z x S W0 mon mc u l s Hm) as (ml & R & A1 & _); [|exact Hs|].
  - left. cbn. by rewrite lookup_fmap, Hm.
  - eapply told; [exact R| |done]. by apply A1.
Qed.

Lemma own_step W mon mc u s ev s' o : sy_monitors S !! mon = Some (mc, u) -> w_mons W !! mon = Some s -> own_event ev = true -> Monitor.mstep z mc s ev = Some (s', o) ->
  w_mons (wstep z x S W (EMonitor mon ev)) !! mon = Some s' /\ w_clients (wstep z x S W (EMonitor mon ev)) = w_clients W.
Proof. intros Hm Hs Ho E. cbn [wstep]. rewrite Ho. unfold mon_event. rewrite Hm, Hs, E. cbn. by rewrite lookup_insert. Qed.

Lemma own_steps W mon mc u s m s' o : sy_monitors S !! mon = Some (mc, u) -> w_mons W !! mon = Some s -> Monitor.mrun z mc s (period_end m) = Some (s', o) ->
  w_mons (wrun W [EMonitor mon Monitor.MClean; EMonitor mon (Monitor.MWipe m); EMonitor mon (Monitor.MPublish m)]) !! mon = Some s'.
Proof.
  intros Hm Hs. unfold period_end. cbn [Monitor.mrun].
  destruct (Monitor.mstep z mc s Monitor.MClean) as [[s1 o1]|] eqn:E1; [|done].
  destruct (Monitor.mstep z mc s1 (Monitor.MWipe m)) as [[s2 o2]|] eqn:E2; [|done].
  destruct (Monitor.mstep z mc s2 (Monitor.MPublish m)) as [[s3 o3]|] eqn:E3; [|done]. intros H. injection H as <- _.
  destruct (own_step W mon mc u s Monitor.MClean _ _ Hm Hs eq_refl E1) as [S1 _].
  destruct (own_step _ mon mc u _ (Monitor.MWipe m) _ _ Hm S1 eq_refl E2) as [S2 _].
  exact (proj1 (own_step _ mon mc u _ (Monitor.MPublish m) _ _ Hm S2 eq_refl E3)).
Qed.

Lemma load_convicts W cl mon dir flag cc ms up con s' : sy_clients S !! cl = Some cc -> w_mons W !! mon = Some ms -> Monitor.m_files ms !! dir = Some (Monitor.update_marshal up) -> con ∈ Monitor.u_cons up ->
  w_clients (wstep z x S W (ELoad cl mon dir flag)) !! cl = Some s' -> SpecClient.idle s' -> SpecClient.convicted s' (g_p0 con).
Proof.
  intros Hcc S5 F Hin Hcl Hi. cbn [System.wstep] in Hcl. rewrite Hcc in Hcl. destruct (w_clients W !! cl) as [sc|] eqn:Ec; [|congruence].
  assert (Monitor.m_files ms !! dir ≫= Monitor.update_unmarshal = Some up) as Eb by (rewrite F; exact (MonitorMore.update_roundtrip up)).
  rewrite S5, Eb in Hcl. clear Eb F.
  destruct (Client.handle_update z cc sc flag up) as [sc' out] eqn:Eh. cbn [set_clients w_clients] in Hcl.
  destruct out; try (by rewrite lookup_delete in Hcl); rewrite lookup_insert in Hcl; injection Hcl as ->.
  - eapply ClientFacts.proofs_convict; [exact Eh|by right].
  - exfalso. by eapply ClientFacts.refused_locks.
  - exfalso. by eapply stuck_busy.
Qed.

Lemma client_finds_out mon mc u l con m cl flag s' : sy_monitors S !! mon = Some (mc, u) -> is_Some (w_mons (wrun W0 l) !! mon) -> arrives l (ToMon mon con) -> g_type con = CON_INIT ->
  (forall m', EMonitor mon (Monitor.MWipe m') ∉ l) -> g_period con = pad2 m -> is_Some (sy_clients S !! cl) ->
  w_clients (wrun W0 (l ++ period_end_and_load mon m cl ("Period_" ++ itoa (Z.of_nat m - Monitor.mc_offset mc)) flag)) !! cl = Some s' ->
  SpecClient.idle s' -> SpecClient.convicted s' (g_p0 con).
Proof.
  intros Hm [s Hs] Ha Ht Hw Hp [cc Hcc] Hcl Hi.
  destruct (mon_history z x S W0 mon mc u l s Hm) as (ml & R & A1 & A2 & _); [left; cbn; by rewrite lookup_fmap, Hm|exact Hs|].
  destruct (told z mc ml s con R) as (con' & C1 & C2 & C3); [by apply A1|done|].
  destruct (unwiped z mc ml s R) as [U1 _]; [intros m' Hin; apply A2 in Hin; [by apply Hw in Hin|done]|].
  destruct (MonitorMore.period_update z mc ml s m R) as (up & s1 & [o1 R1] & _ & F & _ & _ & _ & _ & _ & _ & Hcons & _).
  assert (con' ∈ Monitor.u_cons up) as Hin.
  { apply Hcons. rewrite U1, C3, C1. split; [done|]. rewrite <- Hp. apply (f_equal i_period) in C3. by cbn in C3. }
  destruct R as [o R]. rewrite MonitorFacts.mrun_app, R in R1. destruct (Monitor.mrun z mc s (period_end m)) as [[s2 o2]|] eqn:E2; [|done]. injection R1 as -> _.
  rewrite wrun_app in Hcl. pose proof (own_steps (wrun W0 l) mon mc u s m s1 o2 Hm Hs E2) as S5. clear E2. unfold period_end_and_load in Hcl.
  assert (g_p0 con = g_p0 con') as ->. { apply (f_equal i_entity) in C3. exact (eq_sym C3). }
  eapply load_convicts; [exact Hcc|exact S5|exact F|exact Hin|exact Hcl|exact Hi].
Qed.

Lemma found_out a b l u v : equivocation cfgs a b -> one_period l ->
  (forall w g, arrives l (ToGossip w g) -> harmless cfgs a g) -> one_version_given z x S W0 l a ->
  arrives l (ToGossip u a) -> arrives l (ToGossip v b) -> is_Some (cfgs !! u) -> is_Some (cfgs !! v) ->
  oquiescent (w_net (wrun W0 l)) -> reports_arrived z x S W0 l ->
  forall w c, cfgs !! w = Some c -> exists (y : gpool) con, on_nodes (w_net (wrun W0 l)) !! w = Some y /\ g_p0 a ∈ t_black (p_st y) /\
    g_type con = CON_INIT /\ g_p0 con = g_p0 a /\ verify (gc_crypto c) con = Accept /\ t_con_init (p_st y) !! get_id con = Some con /\
    forall mc u' s, sy_monitors S !! gc_owner c = Some (mc, u') -> w_mons (wrun W0 l) !! gc_owner c = Some s ->
      (exists con', Monitor.m_con s !! get_id con = Some con' /\ g_type con' = CON_INIT /\ g_p0 con' = g_p0 a /\ g_period con' = g_period con) /\
      ((forall m', EMonitor (gc_owner c) (Monitor.MWipe m') ∉ l) -> forall m cl flag s', g_period con = pad2 m -> is_Some (sy_clients S !! cl) ->
        w_clients (wrun W0 (l ++ period_end_and_load (gc_owner c) m cl ("Period_" ++ itoa (Z.of_nat m - Monitor.mc_offset mc)) flag)) !! cl = Some s' ->
        SpecClient.idle s' -> SpecClient.convicted s' (g_p0 a)).
Proof.
  intros He Hl Hh H1 Ha Hb Hu Hv Hq Hr w c Hw.
  destruct (gossipers_find_out a b l u v He Hl Hh H1 Ha Hb Hu Hv Hq Hr w c Hw) as (y & con & C1 & C2 & C3 & C4 & C5 & C6 & C7).
  exists y, con. split; [exact C1|]. do 5 (split; [done|]). intros mc u' s Hm Hs. split.
  - destruct (monitor_finds_out _ mc u' l s con Hm Hs C7 C4) as (con' & D1 & D2 & D3). exists con'. split_and!; auto.
    + rewrite <- C5. apply (f_equal i_entity) in D3. exact D3.
    + apply (f_equal i_period) in D3. exact D3.
  - intros Hw' m cl flag s' Hp Hcl Hs' Hi. rewrite <- C5. by eapply client_finds_out.
Qed.
End detect.
