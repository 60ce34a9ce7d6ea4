(** What accusations lead to in the whole system: enough of them reach every gossiper, every monitor and every client. *)
From Verif Require Import Bytes Hex Json Types Crypto Verify Bitset Cert CertPool CTngExt Revocation Clock Prog Gossiper Network Overlap System SpecVerify SpecGossiper SpecNetwork SpecOverlap SpecDetect SpecAccuse SpecOverlapAccuse SpecSystem SpecSystemDetect SpecSystemAccuse SpecMonitor OverlapAccuseNet SystemFacts SystemRuns SystemDetect.
From Verif Require Logger CA Monitor Client MonitorFacts MonitorMore SpecClient ClientFacts.
From Coq Require Import Lia.
Open Scope string_scope.

Lemma told_full {P : prims} (z : gzip) (c : @Monitor.mconf P) l s g : reached z c l s -> Monitor.MGossip g ∈ l -> g_type g = ACC_FULL ->
  exists g', Monitor.m_acc s !! get_id g = Some g' /\ g_type g' = ACC_FULL /\ get_id g' = get_id g.
Proof.
  intros R Hin Ht. pose proof R as [o R']. apply elem_of_list_split in Hin as (l1 & l2 & ->). rewrite MonitorFacts.mrun_app in R'.
  destruct (Monitor.mrun z c Monitor.monitor_init l1) as [[s1 o1]|] eqn:E1; [|done]. cbn [Monitor.mrun] in R'.
  destruct (Monitor.mstep z c s1 (Monitor.MGossip g)) as [[s2 o2]|] eqn:E2; [|done].
  destruct (Monitor.mrun z c s2 l2) as [[s3 o3]|] eqn:E3; [|done]. injection R' as -> _.
  assert (monitor_type (g_type g)) as Hm by (rewrite Ht; unfold monitor_type; set_solver).
  pose proof (MonitorFacts.gossip_stored z c s1 g s2 o2 Hm E2) as Hh.
  assert (Monitor.m_acc s2 !! get_id g = Some g) as Hg.
  { unfold at_home in Hh. rewrite Ht in Hh. destruct Hh as [[? ?]|[[? ?]|[[? ?]|[[? ?]|[? ?]]]]]; try done; set_solver. }
  destruct (MonitorFacts.acc_kept z c s2 l2 s o3 _ _ E3 Hg) as (g' & Hg' & _). exists g'. split; [done|].
  pose proof (MonitorFacts.reached_filed z c _ s R) as (_ & _ & F & _). destruct (F _ _ Hg') as [-> T]. split; [set_solver|done].
Qed.

Section accuse.
Context {P : prims} (z : gzip) (x : CA.x509lib) (S : sysconf P).
Notation cfgs := (sy_gossipers S).
Notation wrun := (wrun z x S).
Notation wstep := (wstep z x S).

(** A message stays on its way until it arrives or is lost. *)
Lemma any_mail_kept W ev v : v ∈ w_mail W ->
  v ∈ w_mail (wstep W ev) \/ (exists i m, ev = EDeliver i m /\ w_mail W !! i = Some v) \/ (exists i, ev = ELose i /\ w_mail W !! i = Some v).
Proof.
  intros H.
  assert (forall i y, w_mail W !! i = Some y -> v ∈ delete i (w_mail W) \/ y = v) as Hd.
  { intros i y Hi. apply elem_of_list_lookup in H as (j & Hj). destruct (decide (j = i)) as [->|Hn]; [right; congruence|left].
    apply elem_of_list_lookup. destruct (decide (j < i)); [exists j; by rewrite lookup_delete_lt|]. exists (j - 1). rewrite lookup_delete_ge by lia. by replace (Datatypes.S (j - 1)) with j by lia. }
  assert (forall (V : world) ms, v ∈ w_mail V -> v ∈ w_mail (send V ms)) as Hsend by (intros V ms HV; cbn; apply elem_of_app; by left).
  assert (forall (V : world) mon' e, v ∈ w_mail V -> v ∈ w_mail (mon_event z S V mon' e)) as Hmon.
  { intros V mon' e HV. unfold mon_event. repeat case_match; auto. }
  destruct ev; cbn [System.wstep].
  { destruct (w_mail W !! i) as [y|] eqn:Ei; [|by left]. destruct (Hd i y Ei) as [H'| ->]; [|right; left; eauto]. left.
    destruct y; cbn [receive]; unfold ask; repeat case_match; first [exact H'|by apply Hmon|apply Hsend; exact H']. }
  { destruct (w_mail W !! i) as [y|] eqn:Ei; [|by left]. destruct (Hd i y Ei) as [H'| ->]; [|right; right; eauto]. left. cbn. apply elem_of_app. by left. }
  all: left; unfold ca_event; repeat case_match; first [exact H|by apply Hmon|apply Hsend; exact H].
Qed.

Lemma mail_fate W0 l1 l2 v : v ∈ w_mail (wrun W0 l1) ->
  v ∈ w_mail (wrun W0 (l1 ++ l2)) \/ arrives z x S W0 (l1 ++ l2) v \/ loses z x S W0 (l1 ++ l2) v.
Proof.
  intros H. induction l2 as [|ev l2 IH] using rev_ind; [left; by rewrite app_nil_r|].
  rewrite app_assoc, arrives_snoc, loses_snoc, run_snoc. destruct IH as [Hm|[?|?]]; [|by auto..].
  destruct (any_mail_kept _ ev v Hm) as [?|[?|?]]; auto.
Qed.

Lemma timer_sent W0 l mon u a : timer_sends z x S W0 l mon u a -> messages_arrived z x S W0 l -> arrives z x S W0 l (ToGossip u a).
Proof.
  intros (l1 & n & m & stamp & l2 & c & s & s' & o & -> & Hc & Hs & E & Ho) H.
  assert (ToGossip u a ∈ w_mail (wrun W0 (l1 ++ [EMonitor mon (Monitor.MFire n m stamp)]))) as Hin.
  { rewrite run_snoc. cbn [System.wstep own_event]. unfold mon_event. rewrite Hc, Hs, E. cbn [send set_mail w_mail]. apply elem_of_app. right.
    apply elem_of_list_fmap. exists (Monitor.MSend a). by split. }
  assert ((l1 ++ EMonitor mon (Monitor.MFire n m stamp) :: l2)%list = ((l1 ++ [EMonitor mon (Monitor.MFire n m stamp)]) ++ l2)%list) as El by (by rewrite <- app_assoc).
  rewrite El in *. destruct (mail_fate W0 _ l2 _ Hin) as [Hm|[?|Hm]]; [|done|]; by apply H in Hm.
Qed.

Context (T : nat) (HN : honest_network cfgs T) (Hagg : agg_correct P) (Hperm : fast_perm P) (Hdeser : forall sg : bls_sig P, bls_deser (bls_ser sg) = Some sg).
Context (q sec st : string) (lt : string -> Z * Z) (ct : string -> Z * Z * CA.draw * CA.draw).
Notation W0 := (world_init x S q sec st lt ct).
Context (e p : string) (As : list gobj) (HA : accusations cfgs e p As).

Lemma gossipers_convict l us : one_period l -> undisturbed_accusations z x S W0 e As l ->
  oquiescent (w_net (wrun W0 l)) -> messages_arrived z x S W0 l -> reports_arrived z x S W0 l ->
  NoDup us -> length us = T -> (forall u, u ∈ us -> is_Some (cfgs !! u) /\ exists mon a, a ∈ As /\ timer_sends z x S W0 l mon u a) ->
  (forall u y, u ∈ us -> on_nodes (w_net (wrun W0 l)) !! u = Some y -> NoDup (accusation_signers p e (p_st y))) ->
  forall w c, cfgs !! w = Some c -> exists (y : gpool) full, on_nodes (w_net (wrun W0 l)) !! w = Some y /\ e ∈ t_black (p_st y) /\
    t_acc_full (p_st y) !! get_id full = Some full /\ g_type full = ACC_FULL /\ g_p0 full = e /\ verify (gc_crypto c) full = Accept /\
    arrives z x S W0 l (ToMon (gc_owner c) full).
Proof using All.
  intros Hl Hu Hq Hg Hr Hnd Hlen Hus Hdist w c Hw. destruct (net_history z x S W0 l Hl) as (ol & E & Ho & _).
  change (w_net W0) with (onet_init cfgs q sec st) in E.
  destruct (overlapping_accused cfgs T HN Hagg Hperm Hdeser e p As HA ol) with (period := q) (sec := sec) (st := st) (us := us) (v := w) (d := c) as (y & full & C1 & C2 & C3 & C4 & C5 & C6 & C7); auto.
  - intros u g Hin Hp. apply Ho in Hin. destruct (Hu u g Hin Hp) as [?|[Hn Hs]]; [by left|right]. split; [done|]. intros Hst. destruct (Hs Hst) as [H1 H2].
    split; [done|]. intros v h Hv. apply (H2 v h). by apply Ho.
  - rewrite <- E. exact Hq.
  - intros u Hin. destruct (Hus u Hin) as [H1 (mon & a & Ha & Hs)]. split; [done|]. exists a. split; [done|]. apply Ho. by eapply timer_sent.
  - rewrite <- E. exact Hdist.
  - exists y, full. rewrite <- E in C1. split_and!; auto.
    destruct (reported z x S W0 q sec st l w y (gc_owner c) full eq_refl C1 C7) as [Hm|[?|Hm]]; [|done|]; by apply Hr in Hm.
Qed.

Lemma load_convicts_acc W cl mon dir flag cc ms up g s' : sy_clients S !! cl = Some cc -> w_mons W !! mon = Some ms -> Monitor.m_files ms !! dir = Some (Monitor.update_marshal up) -> g ∈ Monitor.u_accs up ->
  w_clients (wstep W (ELoad cl mon dir flag)) !! cl = Some s' -> SpecClient.idle s' -> SpecClient.convicted s' (g_p0 g).
Proof.
  intros Hcc S5 F Hin Hcl Hi. cbn [System.wstep] in Hcl. rewrite Hcc in Hcl. destruct (w_clients W !! cl) as [sc|] eqn:Ec; [|congruence].
  assert (Monitor.m_files ms !! dir ≫= Monitor.update_unmarshal = Some up) as Eb by (rewrite F; exact (MonitorMore.update_roundtrip up)).
  rewrite S5, Eb in Hcl. clear Eb F.
  destruct (Client.handle_update z cc sc flag up) as [sc' out] eqn:Eh. cbn [set_clients w_clients] in Hcl.
  destruct out; try (by rewrite lookup_delete in Hcl); rewrite lookup_insert in Hcl; injection Hcl as ->.
  - eapply ClientFacts.proofs_convict; [exact Eh|by left].
  - exfalso. by eapply ClientFacts.refused_locks.
  - exfalso. by eapply stuck_busy.
Qed.

Lemma client_convicts mon mc u l full m cl flag s' : sy_monitors S !! mon = Some (mc, u) -> is_Some (w_mons (wrun W0 l) !! mon) -> arrives z x S W0 l (ToMon mon full) -> g_type full = ACC_FULL ->
  (forall m', EMonitor mon (Monitor.MWipe m') ∉ l) -> g_period full = pad2 m -> is_Some (sy_clients S !! cl) ->
  w_clients (wrun W0 (l ++ period_end_and_load mon m cl ("Period_" ++ itoa (Z.of_nat m - Monitor.mc_offset mc)) flag)) !! cl = Some s' ->
  SpecClient.idle s' -> SpecClient.convicted s' (g_p0 full).
Proof.
  intros Hm [s Hs] Ha Ht Hw Hp [cc Hcc] Hcl Hi.
  destruct (mon_history z x S W0 mon mc u l s Hm) as (ml & R & A1 & A2 & _); [left; cbn; by rewrite lookup_fmap, Hm|exact Hs|].
  destruct (told_full z mc ml s full R) as (full' & C1 & C2 & C3); [by apply A1|done|].
  destruct (unwiped z mc ml s R) as [_ U1]; [intros m' Hin; apply A2 in Hin; [by apply Hw in Hin|done]|].
  destruct (MonitorMore.period_update z mc ml s m R) as (up & s1 & [o1 R1] & _ & F & _ & _ & _ & _ & _ & _ & _ & Haccs).
  assert (full' ∈ Monitor.u_accs up) as Hin.
  { apply Haccs. rewrite U1, C3, C1. split; [done|]. rewrite <- Hp. apply (f_equal i_period) in C3. by cbn in C3. }
  destruct R as [o R]. rewrite MonitorFacts.mrun_app, R in R1. destruct (Monitor.mrun z mc s (period_end m)) as [[s2 o2]|] eqn:E2; [|done]. injection R1 as -> _.
  rewrite wrun_app in Hcl. pose proof (own_steps z x S (wrun W0 l) mon mc u s m s1 o2 Hm Hs E2) as S5. clear E2. unfold period_end_and_load in Hcl.
  assert (g_p0 full = g_p0 full') as ->. { apply (f_equal i_entity) in C3. exact (eq_sym C3). }
  eapply load_convicts_acc; [exact Hcc|exact S5|exact F|exact Hin|exact Hcl|exact Hi].
Qed.

Lemma accused_convicted l us : one_period l -> undisturbed_accusations z x S W0 e As l ->
  oquiescent (w_net (wrun W0 l)) -> messages_arrived z x S W0 l -> reports_arrived z x S W0 l ->
  NoDup us -> length us = T -> (forall u, u ∈ us -> is_Some (cfgs !! u) /\ exists mon a, a ∈ As /\ timer_sends z x S W0 l mon u a) ->
  (forall u y, u ∈ us -> on_nodes (w_net (wrun W0 l)) !! u = Some y -> NoDup (accusation_signers p e (p_st y))) ->
  forall w c, cfgs !! w = Some c -> exists (y : gpool) full, on_nodes (w_net (wrun W0 l)) !! w = Some y /\ e ∈ t_black (p_st y) /\
    g_type full = ACC_FULL /\ g_p0 full = e /\ verify (gc_crypto c) full = Accept /\ t_acc_full (p_st y) !! get_id full = Some full /\
    forall mc u' s, sy_monitors S !! gc_owner c = Some (mc, u') -> w_mons (wrun W0 l) !! gc_owner c = Some s ->
      (exists full', Monitor.m_acc s !! get_id full = Some full' /\ g_type full' = ACC_FULL /\ g_p0 full' = e /\ g_period full' = g_period full) /\
      ((forall m', EMonitor (gc_owner c) (Monitor.MWipe m') ∉ l) -> forall m cl flag s', g_period full = pad2 m -> is_Some (sy_clients S !! cl) ->
        w_clients (wrun W0 (l ++ period_end_and_load (gc_owner c) m cl ("Period_" ++ itoa (Z.of_nat m - Monitor.mc_offset mc)) flag)) !! cl = Some s' ->
        SpecClient.idle s' -> SpecClient.convicted s' e).
Proof using All.
  intros Hl Hu Hq Hg Hr Hnd Hlen Hus Hdist w c Hw.
  destruct (gossipers_convict l us Hl Hu Hq Hg Hr Hnd Hlen Hus Hdist w c Hw) as (y & full & C1 & C2 & C3 & C4 & C5 & C6 & C7).
  exists y, full. split; [exact C1|]. do 5 (split; [done|]). intros mc u' s Hm Hs. split.
  - destruct (mon_history z x S W0 (gc_owner c) mc u' l s Hm) as (ml & R & A1 & _); [left; cbn; by rewrite lookup_fmap, Hm|exact Hs|].
    destruct (told_full z mc ml s full R) as (full' & D1 & D2 & D3); [by apply A1|done|]. exists full'. split_and!; auto.
    + rewrite <- C5. apply (f_equal i_entity) in D3. exact D3.
    + apply (f_equal i_period) in D3. exact D3.
  - intros Hw' m cl flag s' Hp Hcl Hs' Hi. rewrite <- C5. by eapply client_convicts.
Qed.

(** Only enough fragments, all of gossipers at which an accusation arrived, convict. *)
Lemma convicted_accused l v (y : gpool) : one_period l -> undisturbed_accusations z x S W0 e As l ->
  on_nodes (w_net (wrun W0 l)) !! v = Some y -> e ∈ t_black (p_st y) ->
  T <= length (accusation_signers p e (p_st y)) /\
  forall u, u ∈ accusation_signers p e (p_st y) -> is_Some (cfgs !! u) /\ exists a, a ∈ As /\ arrives z x S W0 l (ToGossip u a).
Proof using All.
  intros Hl Hu Hy Hb. destruct (net_history z x S W0 l Hl) as (ol & E & Ho & _).
  change (w_net W0) with (onet_init cfgs q sec st) in E. rewrite E in Hy.
  destruct (overlapping_only cfgs T HN Hagg Hperm Hdeser e p As HA ol) with (period := q) (sec := sec) (st := st) (v := v) (y := y) as [H1 H2]; auto.
  - intros u g Hin Hp. apply Ho in Hin. destruct (Hu u g Hin Hp) as [?|[Hn Hs]]; [by left|right]. split; [done|]. intros Hst. destruct (Hs Hst) as [H1 H2].
    split; [done|]. intros v' h Hv. apply (H2 v' h). by apply Ho.
  - split; [done|]. intros u Hin. destruct (H2 u Hin) as [? (a & Ha & Hh)]. split; [done|]. exists a. split; [done|]. by apply Ho.
Qed.
End accuse.
