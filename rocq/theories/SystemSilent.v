(** An entity that does not answer enough monitors is convicted by everybody. *)
From Verif Require Import Bytes Hex Json Types Crypto Verify Bitset Cert CertPool CTngExt Revocation Clock Prog Gossiper Network Overlap System SpecVerify SpecGossiper SpecNetwork SpecOverlap SpecDetect SpecAccuse SpecOverlapAccuse SpecSystem SpecSystemDetect SpecSystemAccuse SpecSystemSilent SpecMonitor OverlapAccuseNet SystemFacts SystemRuns SystemDetect SystemAccuse.
From Verif Require Logger CA Monitor Client MonitorFacts MonitorMore SpecClient ClientFacts.
From Coq Require Import Lia.
Open Scope string_scope.

#[local] Instance bitset_eq_dec : EqDecision bitset.
Proof. solve_decision. Defined.
#[local] Instance timer_eq_dec : EqDecision Monitor.timer.
Proof. solve_decision. Defined.

Section silent.
Context {P : prims} (z : gzip) (x : CA.x509lib) (S : sysconf P).
Notation wrun := (wrun z x S).
Notation wstep := (wstep z x S).

(** A pending timer stays until it fires. *)
Lemma store_timers (c : @Monitor.mconf P) s g t : t ∈ Monitor.m_timers s -> t ∈ Monitor.m_timers (Monitor.store z s g).
Proof.
  intros H. unfold Monitor.store. repeat case_match; cbn; try done; rewrite ?elem_of_app; auto.
Qed.
Lemma process_timers (c : @Monitor.mconf P) s g t : t ∈ Monitor.m_timers s -> t ∈ Monitor.m_timers (fst (Monitor.process_valid z c s g)).
Proof. intros H. unfold Monitor.process_valid. repeat case_match; cbn [fst]; auto using store_timers. Qed.
Lemma step_timers (c : @Monitor.mconf P) s ev s' o t : t ∈ Monitor.m_timers s -> Monitor.mstep z c s ev = Some (s', o) ->
  t ∈ Monitor.m_timers s' \/ exists n m stamp, ev = Monitor.MFire n m stamp /\ Monitor.m_timers s !! n = Some t.
Proof.
  intros H E. destruct ev as [g|m|m|f url r|n m stamp| |m|m]; cbn [Monitor.mstep] in E.
  - injection E as E. left. replace s' with (fst (Monitor.handle_gossip z c s g)) by (by rewrite E). unfold Monitor.handle_gossip.
    repeat case_match; cbn [fst]; auto using store_timers, process_timers.
  - injection E as <- _. by left.
  - injection E as <- _. by left.
  - left. assert (forall g, Some (Monitor.process_valid z c s g) = Some (s', o) -> t ∈ Monitor.m_timers s') as Hp.
    { intros g [= E']. replace s' with (fst (Monitor.process_valid z c s g)) by (by rewrite E'). by apply process_timers. }
    assert (Some (Monitor.wait_then_accuse s url f, []) = Some (s', o) -> t ∈ Monitor.m_timers s') as Hw.
    { intros [= <- _]. cbn. apply elem_of_app. by left. }
    unfold Monitor.handle_reply in E. repeat case_match; eauto; done.
  - destruct (Monitor.m_timers s !! n) as [t'|] eqn:En; [|injection E as <- _; by left].
    destruct (decide (t' = t)) as [->|Hn]; [right; eauto|left].
    assert (t ∈ delete n (Monitor.m_timers s)) as Hd.
    { apply elem_of_list_lookup in H as (j & Hj). destruct (decide (j = n)) as [->|Hj']; [congruence|].
      apply elem_of_list_lookup. destruct (decide (j < n)); [exists j; by rewrite lookup_delete_lt|]. exists (j - 1). rewrite lookup_delete_ge by lia. by replace (Datatypes.S (j - 1)) with j by lia. }
    destruct t'; cbn in E; injection E as <- _; [|exact Hd]. unfold Monitor.crv_timer. repeat case_match; exact Hd.
  - injection E as <- _. by left.
  - injection E as <- _. by left.
  - injection E as <- _. by left.
Qed.

(** What an event of the system is for a monitor. *)
Lemma event_timers W ev mon c u s s' t : sy_monitors S !! mon = Some (c, u) -> w_mons W !! mon = Some s -> w_mons (wstep W ev) !! mon = Some s' ->
  t ∈ Monitor.m_timers s -> t ∈ Monitor.m_timers s' \/ exists n m stamp, ev = EMonitor mon (Monitor.MFire n m stamp) /\ Monitor.m_timers s !! n = Some t.
Proof.
  intros Hc Hs Hs' Ht.
  assert (w_mons (wstep W ev) = w_mons W -> t ∈ Monitor.m_timers s') as Hsame by (intros E; rewrite E, Hs in Hs'; by injection Hs' as <-).
  assert (forall W1 mon' me, w_mons W1 = w_mons W -> wstep W ev = mon_event z S W1 mon' me ->
    t ∈ Monitor.m_timers s' \/ (mon' = mon /\ exists n m stamp, me = Monitor.MFire n m stamp /\ Monitor.m_timers s !! n = Some t)) as Hm.
  { intros W1 mon' me E1 E. rewrite E in Hs'. unfold mon_event in Hs'. rewrite E1 in Hs'.
    destruct (sy_monitors S !! mon') as [[c' u']|] eqn:Ec'; [|rewrite E1 in Hs'; left; rewrite Hs in Hs'; by injection Hs' as <-].
    destruct (w_mons W !! mon') as [s1|] eqn:Es1; [|rewrite E1 in Hs'; left; rewrite Hs in Hs'; by injection Hs' as <-].
    destruct (Monitor.mstep z c' s1 me) as [[s2 o]|] eqn:Em; cbn in Hs'.
    - destruct (decide (mon' = mon)) as [->|Hn].
      + rewrite ?E1, lookup_insert in Hs'. injection Hs' as <-. rewrite Hs in Es1. injection Es1 as <-.
        destruct (step_timers _ _ _ _ _ t Ht Em) as [?|?]; [by left|right]. by split.
      + rewrite ?E1, lookup_insert_ne, Hs in Hs' by done. left. by injection Hs' as <-.
    - destruct (decide (mon' = mon)) as [->|Hn]; [rewrite ?E1, lookup_delete in Hs'; done|].
      rewrite ?E1, lookup_delete_ne, Hs in Hs' by done. left. by injection Hs' as <-. }
  destruct ev as [i m|i|y|p|ev|u'|lg t0 t1 t2|lg|ca ds|ca n|ca rs m|mon' ev|cl mon' dir flag].
  - cbn [System.wstep] in *. destruct (w_mail W !! i) as [y|] eqn:Ey; [|left; by apply Hsame].
    destruct y as [lg crt|ca g|ca p|mon' f url|mon' f url r|v g|mon' g]; cbn [receive] in *.
    5: { destruct (Hm (set_mail W (delete i (w_mail W))) mon' (Monitor.MReply f url r) eq_refl eq_refl) as [?|(_ & n & m' & st & E & _)]; [by left|discriminate E]. }
    6: { destruct (Hm (set_mail W (delete i (w_mail W))) mon' (Monitor.MGossip g) eq_refl eq_refl) as [?|(_ & n & m' & st & E & _)]; [by left|discriminate E]. }
    all: left; apply Hsame; unfold ask; repeat case_match; reflexivity.
  - left. apply Hsame. cbn. by case_match.
  - by left; apply Hsame.
  - by left; apply Hsame.
  - left. apply Hsame. cbn. by case_match.
  - by left; apply Hsame.
  - left. apply Hsame. cbn. by repeat case_match.
  - left. apply Hsame. cbn. by repeat case_match.
  - left. apply Hsame. cbn. by repeat case_match.
  - left. apply Hsame. cbn. unfold ca_event. by repeat case_match.
  - left. apply Hsame. cbn. unfold ca_event. by repeat case_match.
  - cbn [System.wstep] in *. destruct (own_event ev) eqn:Eo; [|left; by apply Hsame].
    destruct (Hm W mon' ev eq_refl eq_refl) as [?|(-> & n & m' & st & E & Hn)]; [by left|right]. subst ev. eauto.
  - left. apply Hsame. cbn. by repeat case_match.
Qed.

(** A monitor that has died stays dead. *)
Lemma dead_stays W ev mon : w_mons W !! mon = None -> w_mons (wstep W ev) !! mon = None.
Proof.
  intros H.
  assert (forall W1 mon' me, w_mons W1 = w_mons W -> w_mons (mon_event z S W1 mon' me) !! mon = None) as Hm.
  { intros W1 mon' me E1. unfold mon_event. rewrite E1. destruct (sy_monitors S !! mon') as [[c' u']|]; [|by rewrite E1].
    destruct (w_mons W !! mon') as [s1|] eqn:Es1; [|by rewrite E1]. assert (mon' <> mon) by congruence.
    destruct (Monitor.mstep z c' s1 me) as [[s2 o]|]; cbn; rewrite ?E1; [by rewrite lookup_insert_ne|by rewrite lookup_delete_ne]. }
  destruct ev; cbn [System.wstep]; unfold ca_event; try (repeat case_match; try apply Hm; done).
  destruct (w_mail W !! i) as [y|]; [|done]. destruct y; cbn [receive]; unfold ask; repeat case_match; try apply Hm; done.
Qed.

Lemma fired W0 l1 l2 mon c u s s' t : sy_monitors S !! mon = Some (c, u) -> w_mons (wrun W0 l1) !! mon = Some s -> t ∈ Monitor.m_timers s ->
  w_mons (wrun W0 (l1 ++ l2)) !! mon = Some s' -> t ∉ Monitor.m_timers s' ->
  exists la n m stamp lb sa, l2 = (la ++ EMonitor mon (Monitor.MFire n m stamp) :: lb)%list /\ w_mons (wrun W0 (l1 ++ la)) !! mon = Some sa /\ Monitor.m_timers sa !! n = Some t.
Proof.
  intros Hc Hs Ht. revert s'. induction l2 as [|ev l2 IH] using rev_ind; intros s' Hs' Hn.
  - rewrite app_nil_r, Hs in Hs'. injection Hs' as <-. done.
  - rewrite app_assoc, run_snoc in Hs'. destruct (w_mons (wrun W0 (l1 ++ l2)) !! mon) as [s1|] eqn:E1; [|rewrite dead_stays in Hs'; done].
    destruct (decide (t ∈ Monitor.m_timers s1)) as [H1|H1].
    + destruct (event_timers _ _ _ _ _ _ _ t Hc E1 Hs' H1) as [?|(n & m & stamp & -> & E)]; [done|].
      exists l2, n, m, stamp, [], s1. by split_and!.
    + destruct (IH s1 eq_refl H1) as (la & n & m & stamp & lb & sa & -> & A & B). exists la, n, m, stamp, (lb ++ [ev])%list, sa.
      split_and!; auto. by rewrite <- app_assoc.
Qed.

Lemma unanswered_sends W0 e l mon u : unanswered z x S W0 e l mon u -> exists a, timer_sends z x S W0 l mon u a /\ g_type a = ACC_INIT /\ g_p0 a = e.
Proof.
  intros (c & f & Hc & (l1 & i & m & l2 & r & s & -> & Hy & Hs & Hbad) & Hf & (s' & Hs' & Hn)).
  assert (exists s1, w_mons (wrun W0 (l1 ++ [EDeliver i m])) !! mon = Some s1 /\ Monitor.TAccuse e f ∈ Monitor.m_timers s1) as (s1 & Hs1 & Ht).
  { rewrite run_snoc. cbn [System.wstep]. rewrite Hy. cbn [receive]. unfold mon_event. cbn [w_mons set_mail]. rewrite Hc, Hs. cbn [Monitor.mstep].
    assert (Monitor.handle_reply z c s f e r = Some (Monitor.wait_then_accuse s e f, [])) as ->.
    { unfold Monitor.handle_reply. destruct Hbad as [->|(g & -> & [Hv|(-> & Hv & Hr)])]; [done| |].
      - by rewrite Hv.
      - rewrite Hv. unfold Monitor.check_rev. destruct (srh_and_dcrv z g) as [srh d]. cbn [fst snd] in Hr. by rewrite Hr. }
    cbn. rewrite lookup_insert. eexists. split; [reflexivity|]. cbn. apply elem_of_app. right. by left. }
  assert ((l1 ++ EDeliver i m :: l2)%list = ((l1 ++ [EDeliver i m]) ++ l2)%list) as El by (by rewrite <- app_assoc).
  rewrite El in *. destruct (fired W0 _ l2 mon c u s1 s' _ Hc Hs1 Ht Hs' Hn) as (la & n & m' & stamp & lb & sa & -> & Hsa & Hna).
  rewrite app_assoc in *. destruct (Hf _ n m' stamp lb sa eq_refl Hsa Hna) as (F1 & F2 & F3).
  exists (Monitor.accusation c m' stamp e). split; [|done].
  exists ((l1 ++ [EDeliver i m]) ++ la)%list, n, m', stamp, lb, c, sa, (Monitor.set_timers sa (delete n (Monitor.m_timers sa))), [Monitor.MSend (Monitor.accusation c m' stamp e)].
  split_and!; auto; [|by left]. cbn [Monitor.mstep]. rewrite Hna. cbn [Monitor.fire]. unfold Monitor.accuse_timer, Monitor.accuse, Monitor.has_pom.
  cbn [Monitor.m_temp Monitor.m_acc Monitor.m_con Monitor.set_timers]. unfold Monitor.acc_key, Monitor.con_key. rewrite F1, F2, F3. done.
Qed.

Context (T : nat) (HN : honest_network (sy_gossipers S) T) (Hagg : agg_correct P) (Hperm : fast_perm P) (Hdeser : forall sg : bls_sig P, bls_deser (bls_ser sg) = Some sg).
Context (q sec st : string) (lt : string -> Z * Z) (ct : string -> Z * Z * CA.draw * CA.draw).
Notation W0 := (world_init x S q sec st lt ct).
Context (e p : string) (As : list gobj) (HA : accusations (sy_gossipers S) e p As).

Theorem silent_convicted l us : one_period l -> undisturbed_accusations z x S W0 e As l ->
  oquiescent (w_net (wrun W0 l)) -> messages_arrived z x S W0 l -> reports_arrived z x S W0 l ->
  NoDup us -> length us = T -> (forall u, u ∈ us -> is_Some (sy_gossipers S !! u) /\ exists mon, unanswered z x S W0 e l mon u) ->
  (forall u y, u ∈ us -> on_nodes (w_net (wrun W0 l)) !! u = Some y -> NoDup (accusation_signers p e (p_st y))) ->
  forall w c, sy_gossipers S !! w = Some c -> exists (y : gpool) full, on_nodes (w_net (wrun W0 l)) !! w = Some y /\ e ∈ t_black (p_st y) /\
    g_type full = ACC_FULL /\ g_p0 full = e /\ verify (gc_crypto c) full = Accept /\ t_acc_full (p_st y) !! get_id full = Some full /\
    forall mc u' s, sy_monitors S !! gc_owner c = Some (mc, u') -> w_mons (wrun W0 l) !! gc_owner c = Some s ->
      (exists full', Monitor.m_acc s !! get_id full = Some full' /\ g_type full' = ACC_FULL /\ g_p0 full' = e /\ g_period full' = g_period full) /\
      ((forall m', EMonitor (gc_owner c) (Monitor.MWipe m') ∉ l) -> forall m cl flag s', g_period full = pad2 m -> is_Some (sy_clients S !! cl) ->
        w_clients (wrun W0 (l ++ period_end_and_load (gc_owner c) m cl ("Period_" ++ itoa (Z.of_nat m - Monitor.mc_offset mc)) flag)) !! cl = Some s' ->
        SpecClient.idle s' -> SpecClient.convicted s' e).
Proof using All.
  intros Hl Hu Hq Hg Hr Hnd Hlen Hus Hdist. eapply accused_convicted; eauto.
  intros u Hin. destruct (Hus u Hin) as [Hk (mon & Hx)]. split; [done|]. destruct (unanswered_sends W0 e l mon u Hx) as (a & Ha & Ht & Hp).
  exists mon, a. split; [|done]. destruct (Hu u a (timer_sent z x S W0 l mon u a Ha Hg) Hp) as [?|[Hno _]]; [done|]. exfalso. apply Hno. rewrite Ht. set_solver.
Qed.
End silent.
