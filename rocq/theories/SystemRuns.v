(** The parts of the whole system, each seen by itself: what the gossipers, the monitors and the clients go through in a history of the
    system is a history of theirs. *)
From Verif Require Import Bytes Hex Json Types Crypto Verify Bitset Cert CertPool CTngExt Revocation Prog Gossiper Network Overlap System SpecVerify SpecGossiper SpecSystem SpecSystemDetect SpecMonitor ProgFacts GstFacts CodecFacts GWalk GossiperInv GossiperSeq Duty DutyMore SystemFacts OverlapFacts.
From Verif Require Logger CA Monitor Client MonitorFacts MonitorMore.
From Coq Require Import Lia.
Open Scope string_scope.

Section runs.
Context {P : prims} (z : gzip) (x : CA.x509lib) (S : sysconf P).
Notation cfgs := (sy_gossipers S).
Notation wrun := (wrun z x S).
Notation wstep := (wstep z x S).

Section any.
Context (W0 : world).
Notation arrives := (arrives z x S W0).
Notation loses := (loses z x S W0).

Lemma run_snoc l ev : wrun W0 (l ++ [ev]) = wstep (wrun W0 l) ev.
Proof. by rewrite wrun_app. Qed.

Lemma snoc_split {A} (l l1 l2 : list A) a b : (l ++ [a])%list = (l1 ++ b :: l2)%list -> (l2 = [] /\ l = l1 /\ a = b) \/ exists l2', l2 = (l2' ++ [a])%list /\ l = (l1 ++ b :: l2')%list.
Proof.
  destruct l2 as [|c l2 _] using rev_ind.
  - intros E. apply app_inj_tail in E as [-> ->]. by left.
  - intros E. right. rewrite app_comm_cons, app_assoc in E. apply app_inj_tail in E as [-> ->]. by exists l2.
Qed.

Lemma arrives_snoc l ev y : arrives (l ++ [ev]) y <-> arrives l y \/ exists i m, ev = EDeliver i m /\ w_mail (wrun W0 l) !! i = Some y.
Proof.
  split.
  - intros (l1 & i & m & l2 & E & H). apply snoc_split in E as [(-> & -> & ->)|(l2' & -> & ->)]; [right; eauto|left]. by exists l1, i, m, l2'.
  - intros [(l1 & i & m & l2 & -> & H)|(i & m & -> & H)].
    + exists l1, i, m, (l2 ++ [ev])%list. split; [|done]. by rewrite <- app_assoc.
    + by exists l, i, m, [].
Qed.
Lemma loses_snoc l ev y : loses (l ++ [ev]) y <-> loses l y \/ exists i, ev = ELose i /\ w_mail (wrun W0 l) !! i = Some y.
Proof.
  split.
  - intros (l1 & i & l2 & E & H). apply snoc_split in E as [(-> & -> & ->)|(l2' & -> & ->)]; [right; eauto|left]. by exists l1, i, l2'.
  - intros [(l1 & i & l2 & -> & H)|(i & -> & H)].
    + exists l1, i, (l2 ++ [ev])%list. split; [|done]. by rewrite <- app_assoc.
    + by exists l, i, [].
Qed.
Lemma arrives_nil y : ~ arrives [] y.
Proof. intros (l1 & i & m & l2 & E & _). by destruct l1. Qed.

(** ** What an event does to the gossipers' network *)
Lemma mon_event_net W mon ev : w_net (mon_event z S W mon ev) = w_net W.
Proof. unfold mon_event. destruct (sy_monitors S !! mon) as [[c u]|]; [|done]. destruct (w_mons W !! mon); [|done]. by destruct (Monitor.mstep _ _ _ _) as [[s' o]|]. Qed.
Lemma ask_net W mon f url m : w_net (ask W mon f url m) = w_net W.
Proof. unfold ask. by repeat case_match. Qed.
Lemma ask_mons (W : world) mon f url m : w_mons (ask W mon f url m) = w_mons W.
Proof. unfold ask. by repeat case_match. Qed.

Definition net_part (W : world) (ev : wevent) : list oevent :=
  match ev with
  | EDeliver i m => match w_mail W !! i with Some (ToGossip u g) => [OHand u g] | _ => [] end
  | EGossip e => if inner_event e then [e] else []
  | _ => []
  end.
Lemma step_net W ev : match ev with EPost _ | EPeriod _ => False | _ => True end -> w_net (wstep W ev) = onet_run cfgs (w_net W) (net_part W ev).
Proof.
  intros H. destruct ev; try done; cbn [System.wstep net_part].
  - destruct (w_mail W !! i) as [y|]; [|done]. destruct y; cbn [receive onet_run fold_left]; try (by rewrite ?mon_event_net, ?ask_net).
    + cbn [set_mail w_loggers]. by destruct (w_loggers W !! l).
    + destruct (sy_cas S !! ca) as [[? ?]|]; [|done]. cbn [set_mail w_cas]. by destruct (w_cas W !! ca).
    + cbn [set_mail w_cas]. by destruct (w_cas W !! ca).
  - by destruct (w_mail W !! i).
  - by destruct (inner_event e).
  - destruct (sy_loggers S !! l); [|done]. destruct (w_loggers W !! l); [|done]. by destruct (Logger.publish _ _ _ _ _ _) as [[s' ms] []].
  - by destruct (w_loggers W !! l).
  - destruct (sy_cas S !! ca) as [[? ?]|]; [|done]. destruct (w_cas W !! ca); [|done]. by destruct (CA.issue _ _ _ _) as [[? ?] ?].
  - unfold ca_event. destruct (sy_cas S !! ca) as [[? ?]|]; [|done]. by destruct (w_cas W !! ca).
  - unfold ca_event. destruct (sy_cas S !! ca) as [[? ?]|]; [|done]. by destruct (w_cas W !! ca).
  - destruct (own_event e); [|done]. apply mon_event_net.
  - destruct (sy_clients S !! cl); [|done]. destruct (w_clients W !! cl); [|done]. destruct (w_mons W !! mon); [|done]. destruct (_ ≫= _); [|done].
    by destruct (Client.handle_update _ _ _ _ _).
Qed.

Lemma net_history l : one_period l -> exists ol, w_net (wrun W0 l) = onet_run cfgs (w_net W0) ol /\
  (forall u g, OHand u g ∈ ol <-> arrives l (ToGossip u g)) /\ (forall e, inner_event e = true -> e ∈ ol -> EGossip e ∈ l).
Proof.
  induction l as [|ev l IH] using rev_ind; intros H.
  - exists []. split; [done|]. split; [|by intros e _ ?%elem_of_nil]. intros u g. split; [intros Hg; by apply elem_of_nil in Hg|]. intros Hg. by apply arrives_nil in Hg.
  - destruct IH as (ol & E & Ho & Hi); [intros ev' Hev; apply H, elem_of_app; by left|].
    exists (ol ++ net_part (wrun W0 l) ev)%list. split_and!.
    + rewrite run_snoc, step_net by (apply (H ev), elem_of_app; right; by left). rewrite E. unfold onet_run. by rewrite fold_left_app.
    + intros u g. rewrite elem_of_app, Ho, arrives_snoc. apply or_iff_compat_l. destruct ev; cbn [net_part]; try (split; [intros Hg; by apply elem_of_nil in Hg|by intros (? & ? & ? & _)]).
      * destruct (w_mail (wrun W0 l) !! i) as [y|] eqn:Ey.
        -- split.
           ++ intros Hg. destruct y; try (by apply elem_of_nil in Hg). apply elem_of_list_singleton in Hg as [= -> ->]. eauto.
           ++ intros (i' & m' & [= <- <-] & Hy). assert (y = ToGossip u g) as -> by congruence. by left.
        -- split; [intros Hg; by apply elem_of_nil in Hg|]. intros (i' & m' & [= <- <-] & Hy). congruence.
      * split; [|by intros (? & ? & ? & _)]. destruct (inner_event e) eqn:Ei; [|intros Hg; by apply elem_of_nil in Hg]. intros Hg. by apply elem_of_list_singleton in Hg as <-.
    + intros e He. rewrite !elem_of_app. intros [Hin|Hin]; [left; auto|right]. destruct ev; cbn [net_part] in Hin; try (by apply elem_of_nil in Hin).
      * destruct (w_mail (wrun W0 l) !! i) as [[]|]; try (by apply elem_of_nil in Hin). by apply elem_of_list_singleton in Hin as ->.
      * destruct (inner_event e0); [|by apply elem_of_nil in Hin]. apply elem_of_list_singleton in Hin as ->. by left.
Qed.

(** ** What an event does to one monitor *)
Definition mon_part (W : world) (mon : string) (ev : wevent) : list Monitor.mevent :=
  match ev with
  | EDeliver i m => match w_mail W !! i with
                    | Some (Response mon' f url r) => if String.eqb mon' mon then [Monitor.MReply f url r] else []
                    | Some (ToMon mon' g) => if String.eqb mon' mon then [Monitor.MGossip g] else []
                    | _ => []
                    end
  | EMonitor mon' e => if own_event e && String.eqb mon' mon then [e] else []
  | _ => []
  end.

Lemma mon_event_mons W mon mon' c u ev s : sy_monitors S !! mon = Some (c, u) -> w_mons (mon_event z S W mon' ev) !! mon = Some s ->
  exists s0 o, w_mons W !! mon = Some s0 /\ Monitor.mrun z c s0 (if String.eqb mon' mon then [ev] else []) = Some (s, o).
Proof.
  intros Hc. unfold mon_event. destruct (String.eqb_spec mon' mon) as [->|Hn].
  - rewrite Hc. destruct (w_mons W !! mon) as [s0|] eqn:E0; [|intros ?; congruence]. destruct (Monitor.mstep z c s0 ev) as [[s1 o1]|] eqn:Es; cbn.
    + rewrite lookup_insert. intros [= ->]. exists s0, (o1 ++ [])%list. split; [done|]. cbn. by rewrite Es.
    + by rewrite lookup_delete.
  - intros H. exists s, []. split; [|done]. destruct (sy_monitors S !! mon') as [[c' u']|]; [|done]. destruct (w_mons W !! mon') as [s0|]; [|done].
    destruct (Monitor.mstep z c' s0 ev) as [[s1 o1]|]; cbn in H; [by rewrite lookup_insert_ne in H|by rewrite lookup_delete_ne in H].
Qed.

Lemma step_mon W mon c u ev s : sy_monitors S !! mon = Some (c, u) -> w_mons (wstep W ev) !! mon = Some s ->
  exists s0 o, w_mons W !! mon = Some s0 /\ Monitor.mrun z c s0 (mon_part W mon ev) = Some (s, o).
Proof.
  intros Hc. destruct ev; cbn [System.wstep mon_part]; intros H; try (exists s, []; split; [exact H|done]).
  - destruct (w_mail W !! i) as [y|]; [|by exists s, []]. destruct y; cbn [receive] in H.
    + cbn [set_mail w_loggers] in H. exists s, []. split; [|done]. by destruct (w_loggers W !! l).
    + exists s, []. split; [|done]. destruct (sy_cas S !! ca) as [[? ?]|]; [|done]. cbn [set_mail w_cas] in H. by destruct (w_cas W !! ca).
    + exists s, []. split; [|done]. cbn [set_mail w_cas] in H. by destruct (w_cas W !! ca).
    + rewrite ask_mons in H. by exists s, [].
    + exact (mon_event_mons _ mon mon0 c u _ s Hc H).
    + by exists s, [].
    + exact (mon_event_mons _ mon mon0 c u _ s Hc H).
  - exists s, []. split; [|done]. by destruct (w_mail W !! i).
  - exists s, []. split; [|done]. by destruct (inner_event e).
  - exists s, []. split; [|done]. destruct (sy_loggers S !! l); [|done]. destruct (w_loggers W !! l); [|done]. by destruct (Logger.publish _ _ _ _ _ _) as [[s' ms] []].
  - exists s, []. split; [|done]. by destruct (w_loggers W !! l).
  - exists s, []. split; [|done]. destruct (sy_cas S !! ca) as [[? ?]|]; [|done]. destruct (w_cas W !! ca); [|done]. by destruct (CA.issue _ _ _ _) as [[? ?] ?].
  - exists s, []. split; [|done]. unfold ca_event in H. destruct (sy_cas S !! ca) as [[? ?]|]; [|done]. by destruct (w_cas W !! ca).
  - exists s, []. split; [|done]. unfold ca_event in H. destruct (sy_cas S !! ca) as [[? ?]|]; [|done]. by destruct (w_cas W !! ca).
  - destruct (own_event e); cbn [andb]; [|by exists s, []]. exact (mon_event_mons _ mon mon0 c u _ s Hc H).
  - exists s, []. split; [|done]. destruct (sy_clients S !! cl); [|done]. destruct (w_clients W !! cl); [|done]. destruct (w_mons W !! mon0); [|done]. destruct (_ ≫= _); [|done].
    by destruct (Client.handle_update _ _ _ _ _).
Qed.

Lemma mon_history mon c u l s : sy_monitors S !! mon = Some (c, u) -> w_mons W0 !! mon = Some Monitor.monitor_init \/ w_mons W0 !! mon = None ->
  w_mons (wrun W0 l) !! mon = Some s ->
  exists ml, reached z c ml s /\ (forall g, Monitor.MGossip g ∈ ml <-> arrives l (ToMon mon g)) /\ (forall ev, own_event ev = true -> ev ∈ ml <-> EMonitor mon ev ∈ l) /\
    (forall f url r, Monitor.MReply f url r ∈ ml <-> arrives l (Response mon f url r)).
Proof.
  intros Hc Hi. revert s. induction l as [|ev l IH] using rev_ind; intros s H.
  - exists []. split_and!.
    + cbn in H. destruct Hi as [Hi|Hi]; rewrite Hi in H; [|done]. injection H as <-. by exists [].
    + intros g. split; [intros Hg; by apply elem_of_nil in Hg|]. intros Hg. by apply arrives_nil in Hg.
    + intros ev _. split; intros Hg; by apply elem_of_nil in Hg.
    + intros f url r. split; [intros Hg; by apply elem_of_nil in Hg|]. intros Hg. by apply arrives_nil in Hg.
  - rewrite run_snoc in H. destruct (step_mon _ mon c u ev s Hc H) as (s0 & o & H0 & Hr). destruct (IH s0 H0) as (ml & [o0 R] & A1 & A2 & A3).
    exists (ml ++ mon_part (wrun W0 l) mon ev)%list. split_and!.
    + eexists. rewrite MonitorFacts.mrun_app, R, Hr. reflexivity.
    + intros g. rewrite elem_of_app, A1, arrives_snoc. apply or_iff_compat_l. destruct ev; cbn [mon_part]; try (split; [intros Hg; by apply elem_of_nil in Hg|by intros (? & ? & ? & _)]).
      * destruct (w_mail (wrun W0 l) !! i) as [y|] eqn:Ey.
        -- split.
           ++ intros Hg. destruct y; try (by apply elem_of_nil in Hg); destruct (String.eqb_spec mon0 mon) as [->|]; try (by apply elem_of_nil in Hg).
              ** by apply elem_of_list_singleton in Hg.
              ** apply elem_of_list_singleton in Hg as [= ->]. eauto.
           ++ intros (i' & m' & [= <- <-] & Hy). assert (y = ToMon mon g) as -> by congruence. rewrite String.eqb_refl. by left.
        -- split; [intros Hg; by apply elem_of_nil in Hg|]. intros (i' & m' & [= <- <-] & Hy). congruence.
      * split; [|by intros (? & ? & ? & _)]. destruct (own_event e) eqn:Ei; cbn [andb]; [|intros Hg; by apply elem_of_nil in Hg].
        destruct (String.eqb mon0 mon); [|intros Hg; by apply elem_of_nil in Hg]. intros Hg. by apply elem_of_list_singleton in Hg as <-.
    + intros e He. rewrite !elem_of_app, (A2 e He). apply or_iff_compat_l. rewrite elem_of_list_singleton. destruct ev; cbn [mon_part]; try (split; [intros Hg; by apply elem_of_nil in Hg|done]).
      * split; [|done]. intros Hg. destruct (w_mail (wrun W0 l) !! i) as [[]|]; try (by apply elem_of_nil in Hg); destruct (String.eqb mon0 mon); try (by apply elem_of_nil in Hg);
          apply elem_of_list_singleton in Hg; by subst e.
      * destruct (String.eqb_spec mon0 mon) as [->|Hn].
        -- destruct (own_event e0) eqn:E0; cbn [andb].
           ++ rewrite elem_of_list_singleton. split; [by intros ->|by intros [= ->]].
           ++ split; [intros Hg; by apply elem_of_nil in Hg|]. intros [= ->]. congruence.
        -- rewrite andb_false_r. split; [intros Hg; by apply elem_of_nil in Hg|]. intros [= ? ?]. congruence.
    + intros f url r. rewrite elem_of_app, A3, arrives_snoc. apply or_iff_compat_l. destruct ev; cbn [mon_part]; try (split; [intros Hg; by apply elem_of_nil in Hg|by intros (? & ? & ? & _)]).
      * destruct (w_mail (wrun W0 l) !! i) as [y|] eqn:Ey.
        -- split.
           ++ intros Hg. destruct y; try (by apply elem_of_nil in Hg); destruct (String.eqb_spec mon0 mon) as [->|]; try (by apply elem_of_nil in Hg).
              ** apply elem_of_list_singleton in Hg as [= -> -> ->]. eauto.
              ** by apply elem_of_list_singleton in Hg.
           ++ intros (i' & m' & [= <- <-] & Hy). assert (y = Response mon f url r) as -> by congruence. rewrite String.eqb_refl. by left.
        -- split; [intros Hg; by apply elem_of_nil in Hg|]. intros (i' & m' & [= <- <-] & Hy). congruence.
      * split; [|by intros (? & ? & ? & _)]. destruct (own_event e) eqn:Ei; cbn [andb]; [|intros Hg; by apply elem_of_nil in Hg].
        destruct (String.eqb mon0 mon); [|intros Hg; by apply elem_of_nil in Hg]. intros Hg. by apply elem_of_list_singleton in Hg as <-.
Qed.

(** ** What an event does to one gossiper *)
Section pools.
Context (p sec st : string).
Definition reaches (u : string) (y : gpool) : Prop := exists c, cfgs !! u = Some c /\ gpsteps c (init_pool p sec st) y.
Definition net_reached (N : onet) : Prop := forall u y, on_nodes N !! u = Some y -> reaches u y.
(** Every gossiper of [N'] is one of [N], some steps later. *)
Definition later (N N' : onet) : Prop := forall u y', on_nodes N' !! u = Some y' -> exists c y, cfgs !! u = Some c /\ on_nodes N !! u = Some y /\ gpsteps c y y'.

Lemma later_reached N N' : net_reached N -> later N N' -> net_reached N'.
Proof. intros H HL u y' Hy'. destruct (HL u y' Hy') as (c & y & Hc & Hy & Hs). destruct (H u y Hy) as (c' & Hc' & Hr). assert (c' = c) as -> by congruence. exists c. split; [done|]. by eapply psteps_app. Qed.

Lemma later_same (N N' : onet) : net_reached N -> on_nodes N' = on_nodes N -> later N N'.
Proof. intros H E u y Hy. rewrite E in Hy. destruct (H u y Hy) as (c & Hc & _). exists c, y. split_and!; auto. constructor. Qed.

Lemma later_act N u f : net_reached N -> (forall c y, cfgs !! u = Some c -> gpsteps c y (f c y)) -> later N (oact cfgs N u f).
Proof.
  intros H Hf. unfold oact. destruct (cfgs !! u) as [c|] eqn:Hc; [|by apply later_same]. destruct (on_nodes N !! u) as [y|] eqn:Hy; [|by apply later_same].
  intros v y'. cbn [on_nodes]. rewrite lookup_insert_Some. intros [[<- <-]|[Hn Hy']].
  - exists c, y. split_and!; auto.
  - destruct (H v y' Hy') as (c' & Hc' & _). exists c', y'. split_and!; auto. constructor.
Qed.

Lemma one (c : gconf P) (y y' : gpool) : gpstep c y y' -> gpsteps c y y'.
Proof. intros H. eapply psteps_trans; [constructor|exact H]. Qed.

Lemma add_later (c : gconf P) ev (y : gpool) : match ev with Recv _ _ | Notify _ | Request _ => True | _ => False end -> gpsteps c y (thread_add (request_prog c ev) y).
Proof. intros H. apply one. destruct y. destruct ev; try done; apply step_req; constructor. Qed.

Lemma arrival_kind q ev : arrival q = Some ev -> match ev with Recv _ _ | Notify _ | Request _ => True | _ => False end.
Proof.
  unfold arrival. set (b := match po_msg q with MObj g => gobj_marshal g | MNote n => note_marshal n end). clearbody b.
  destruct (bool_decide _); [destruct (gobj_decode b); [|done]; by intros [= <-]|]. destruct (String.eqb _ _); [destruct (note_decode b); [|done]; by intros [= <-]|].
  destruct (String.eqb _ _); [|done]. destruct (note_decode b); [|done]. by intros [= <-].
Qed.

Lemma step_later N ev : net_reached N -> later N (onet_step cfgs N ev).
Proof.
  intros H. destruct ev as [u g|j|u j|u j|u q sc t]; cbn [onet_step].
  - apply later_act; [done|]. intros c y _. by apply add_later.
  - destruct (on_flight N !! j) as [q|]; [|by apply later_same]. destruct (arrival q) as [ev|] eqn:Ea; [|by apply later_same].
    assert (net_reached (mkonet (on_nodes N) (delete j (on_flight N)))) as H' by done.
    pose proof (later_act _ (po_to q) (λ c, thread_add (request_prog c ev)) H') as X. intros u y Hy. apply X; [|exact Hy]. intros c y' _. apply add_later. by eapply arrival_kind.
  - apply later_act; [done|]. intros c y _. destruct (thread_pstep (start_task c) (grequest c) clock_step j y) as [->|Hs]; [constructor|by apply one].
  - apply later_act; [done|]. intros c y _. unfold task_start. destruct (p_tasks y !! j) as [t|] eqn:E; [|constructor]. apply one. destruct y as [s l ts cr]. cbn in *.
    apply list_mid in E as (l1 & l2 & -> & ->). rewrite delete_mid. apply step_start.
  - apply later_act; [done|]. intros c y _. apply one. destruct y. apply step_env. by exists q, sc, t.
Qed.
Lemma period_later N u : net_reached N -> later N (oact cfgs N u (λ _, thread_add periodic)).
Proof. intros H. apply later_act; [done|]. intros c y _. apply one. destruct y. apply step_req. constructor. Qed.

Lemma world_later W ev : net_reached (w_net W) -> later (w_net W) (w_net (wstep W ev)).
Proof.
  intros H.
  assert (match ev with EPost _ | EPeriod _ => False | _ => True end -> later (w_net W) (w_net (wstep W ev))) as Hmost.
  { intros Hev. rewrite step_net by done. destruct ev; try (by apply later_same); cbn [net_part].
    - destruct (w_mail W !! i) as [[]|]; try (by apply later_same). by apply step_later.
    - destruct (inner_event e); [|by apply later_same]. by apply step_later. }
  destruct ev; auto; [by apply later_same|]. by apply period_later.
Qed.

Lemma init_reached : net_reached (onet_init cfgs p sec st).
Proof. intros u y Hy. cbn in Hy. apply lookup_fmap_Some in Hy as (c & <- & Hc). exists c. split; [done|constructor]. Qed.

Lemma gossiper_history l : w_net W0 = onet_init cfgs p sec st -> net_reached (w_net (wrun W0 l)).
Proof.
  intros E. induction l as [|ev l IH] using rev_ind; [cbn; rewrite E; apply init_reached|]. rewrite run_snoc. eapply later_reached; [exact IH|]. by apply world_later.
Qed.

Lemma trace_grows (c : gconf P) (y y' : gpool) : gpsteps c (init_pool p sec st) y -> gpsteps c y y' -> t_trace (p_st y) `prefix_of` t_trace (p_st y').
Proof.
  intros H1 H2.
  assert (pool_ok (GI c) GR Gtok (λ w, w = NilDeref) y) as Hy.
  { eapply (pool_steps (GI c) GR Gtok (λ w, w = NilDeref) (PreOrder0 := s_pre c) (s_stable c) (start_task c) (grequest c) clock_step (s_starts c) (s_requests c) (s_env c)); [exact H1|].
    split_and!; cbn; auto. apply GI_init. }
  exact (proj2 (pool_steps (GI c) GR Gtok (λ w, w = NilDeref) (PreOrder0 := s_pre c) (s_stable c) (start_task c) (grequest c) clock_step (s_starts c) (s_requests c) (s_env c) y y' H2 Hy)).
Qed.

(** ** Reports to the monitors *)
Lemma in_reports mon g tr : ToMon mon g ∈ reports tr <-> ToMonitor mon g ∈ tr.
Proof.
  unfold reports. rewrite elem_of_list_omap. split.
  - intros (ev & Hev & E). destruct ev; try done. by injection E as -> ->.
  - intros H. by exists (ToMonitor mon g).
Qed.

Lemma in_new_reports (N N' : onet) u (y y' : gpool) mon g : on_nodes N !! u = Some y -> on_nodes N' !! u = Some y' -> t_trace (p_st y) `prefix_of` t_trace (p_st y') ->
  ToMonitor mon g ∈ t_trace (p_st y') -> ToMonitor mon g ∈ t_trace (p_st y) \/ ToMon mon g ∈ new_reports N N'.
Proof.
  intros Hy Hy' [k E] Hin. rewrite E in Hin. apply elem_of_app in Hin as [?|Hin]; [by left|right]. unfold new_reports.
  apply elem_of_list_In, in_concat. exists (reports k). split; [|by apply elem_of_list_In, in_reports].
  apply elem_of_list_In, elem_of_list_fmap. exists (u, y'). split; [|by apply elem_of_map_to_list]. cbn [fst snd].
  assert (forall o : option gpool, o = Some y -> reports k = match o with Some y0 => reports (drop (length (t_trace (p_st y0))) (t_trace (p_st y'))) | None => [] end) as X.
  { intros o ->. by rewrite E, drop_app. }
  exact (X _ Hy).
Qed.

Lemma mail_kept W ev mon g : ToMon mon g ∈ w_mail W ->
  ToMon mon g ∈ w_mail (wstep W ev) \/ (exists i m, ev = EDeliver i m /\ w_mail W !! i = Some (ToMon mon g)) \/ (exists i, ev = ELose i /\ w_mail W !! i = Some (ToMon mon g)).
Proof.
  intros H.
  assert (forall i y, w_mail W !! i = Some y -> ToMon mon g ∈ delete i (w_mail W) \/ y = ToMon mon g) as Hd.
  { intros i y Hi. apply elem_of_list_lookup in H as (j & Hj). destruct (decide (j = i)) as [->|Hn]; [right; congruence|left].
    apply elem_of_list_lookup. destruct (decide (j < i)); [exists j; by rewrite lookup_delete_lt|]. exists (j - 1). rewrite lookup_delete_ge by lia. by replace (Datatypes.S (j - 1)) with j by lia. }
  assert (forall (V : world) ms, ToMon mon g ∈ w_mail V -> ToMon mon g ∈ w_mail (send V ms)) as Hsend by (intros V ms HV; cbn; apply elem_of_app; by left).
  assert (forall (V : world) mon' e, ToMon mon g ∈ w_mail V -> ToMon mon g ∈ w_mail (mon_event z S V mon' e)) as Hmon.
  { intros V mon' e HV. unfold mon_event. repeat case_match; auto. }
  destruct ev; cbn [System.wstep].
  { destruct (w_mail W !! i) as [y|] eqn:Ei; [|by left]. destruct (Hd i y Ei) as [H'| ->]; [|right; left; eauto]. left.
    destruct y; cbn [receive]; unfold ask; repeat case_match; first [exact H'|by apply Hmon|apply Hsend; exact H']. }
  { destruct (w_mail W !! i) as [y|] eqn:Ei; [|by left]. destruct (Hd i y Ei) as [H'| ->]; [|right; right; eauto]. left. cbn. apply elem_of_app. by left. }
  all: left; unfold ca_event; repeat case_match; first [exact H|by apply Hmon|apply Hsend; exact H].
Qed.

Lemma with_net_report (W : world) N u (y y' : gpool) mon g : on_nodes (w_net W) !! u = Some y -> on_nodes N !! u = Some y' -> t_trace (p_st y) `prefix_of` t_trace (p_st y') ->
  ToMonitor mon g ∈ t_trace (p_st y') -> ToMonitor mon g ∈ t_trace (p_st y) \/ ToMon mon g ∈ w_mail (with_net W N).
Proof.
  intros Hy Hy' Hp Hin. destruct (in_new_reports (w_net W) N u y y' mon g Hy Hy' Hp Hin) as [?|Hn]; [by left|right]. cbn. apply elem_of_app. by right.
Qed.

Lemma step_report W ev u (y y' : gpool) mon g : on_nodes (w_net W) !! u = Some y -> on_nodes (w_net (wstep W ev)) !! u = Some y' -> t_trace (p_st y) `prefix_of` t_trace (p_st y') ->
  ToMonitor mon g ∈ t_trace (p_st y') -> ToMonitor mon g ∈ t_trace (p_st y) \/ ToMon mon g ∈ w_mail (wstep W ev).
Proof.
  intros Hy Hy' Hp Hin.
  assert (w_net (wstep W ev) = w_net W -> ToMonitor mon g ∈ t_trace (p_st y)) as Hsame.
  { intros E. rewrite E in Hy'. pose proof (eq_trans (eq_sym Hy) Hy') as X. injection X as <-. done. }
  assert (match ev with EPost _ | EPeriod _ => False | _ => True end -> net_part W ev = [] -> ToMonitor mon g ∈ t_trace (p_st y)) as Hnone.
  { intros H1 H2. apply Hsame. by rewrite step_net, H2. }
  destruct ev; try (left; by apply Hnone).
  - cbn [net_part] in Hnone. destruct (w_mail W !! i) as [m'|] eqn:Ei; [|left; by apply Hnone]. destruct m'; try (left; by apply Hnone).
    cbn [System.wstep] in *. rewrite Ei in *. cbn [receive] in *. by apply (with_net_report (set_mail W (delete i (w_mail W))) _ u y y').
  - left. cbn in Hy'. pose proof (eq_trans (eq_sym Hy) Hy') as X. injection X as <-. done.
  - cbn [net_part] in Hnone. cbn [System.wstep] in *. destruct (inner_event e); [|left; by apply Hnone]. by apply (with_net_report W _ u y y').
  - cbn [System.wstep] in *. by apply (with_net_report W _ u y y').
Qed.

Lemma reported l u (y : gpool) mon g : w_net W0 = onet_init cfgs p sec st -> on_nodes (w_net (wrun W0 l)) !! u = Some y -> ToMonitor mon g ∈ t_trace (p_st y) ->
  ToMon mon g ∈ w_mail (wrun W0 l) \/ arrives l (ToMon mon g) \/ loses l (ToMon mon g).
Proof.
  intros E. revert y. induction l as [|ev l IH] using rev_ind; intros y' Hy' Hin.
  - cbn in Hy'. rewrite E in Hy'. cbn in Hy'. apply lookup_fmap_Some in Hy' as (c & <- & _). by apply elem_of_nil in Hin.
  - rewrite run_snoc in *. pose proof (gossiper_history l E) as Hr. destruct (world_later (wrun W0 l) ev Hr u y' Hy') as (c & y & Hc & Hy & Hs).
    destruct (Hr u y Hy) as (c' & Hc' & Hrc). assert (c' = c) as -> by (pose proof (eq_trans (eq_sym Hc) Hc') as X; by injection X).
    destruct (step_report (wrun W0 l) ev u y y' mon g Hy Hy') as [Ho|Hn]; [by eapply trace_grows|done| |by left].
    rewrite arrives_snoc, loses_snoc. destruct (IH y Hy Ho) as [Hm|[?|?]]; [|by auto..].
    destruct (mail_kept (wrun W0 l) ev mon g Hm) as [?|[?|?]]; auto.
Qed.
End pools.
End any.
End runs.
