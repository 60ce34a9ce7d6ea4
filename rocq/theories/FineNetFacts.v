(** A network of gossipers at the level of single accesses, and a system with such gossipers, behave as those with atomic critical sections. *)
From Verif Require Import Bytes Types Crypto Verify Bitset Cert CertPool CTngExt Revocation Prog Gossiper Network Overlap System Locks LockUse Fine FineGossiper FineNet SpecFineNet ProgFacts FineFacts FineGossiperFacts SpecVerify SpecGossiper SpecNetwork SpecOverlap SpecSystem Duty SystemFacts OverlapFacts SystemHonest.
From Verif Require Logger CA Monitor Client.
From Coq Require Import Lia.
Open Scope string_scope.

Notation grelated := (related (Task := gtask) same).

Section fnet.
Context {P : prims} (cfgs : gmap string (gconf P)).

(** The pools of the two networks correspond. *)
Definition nodes_rel (F : gmap string fgpool) (N : gmap string gpool) : Prop :=
  forall u, match F !! u, N !! u with Some y, Some a => grelated y a | None, None => True | _, _ => False end.
Definition net_rel (F : fnet) (N : onet) : Prop := fn_flight F = on_flight N /\ nodes_rel (fn_nodes F) (on_nodes N).

Lemma nodes_insert F N u y a : nodes_rel F N -> grelated y a -> nodes_rel (<[u := y]> F) (<[u := a]> N).
Proof.
  intros H Hr v. destruct (decide (u = v)) as [->|Hn]; [by rewrite !lookup_insert|]. rewrite !lookup_insert_ne by done. apply H.
Qed.
Lemma grelated_st y a : grelated y a -> f_st y = p_st a.
Proof. by intros (?&_). Qed.

(** The same change on both sides. *)
Lemma act_rel F N u f g : net_rel F N -> (forall c y a, cfgs !! u = Some c -> grelated y a -> grelated (f c y) (g c a)) ->
  net_rel (fact cfgs F u f) (oact cfgs N u g).
Proof.
  intros [Hf Hn] Hg. unfold fact, oact. destruct (cfgs !! u) as [c|] eqn:Hc; [|done]. pose proof (Hn u) as Hu.
  destruct (fn_nodes F !! u) as [y|] eqn:Ey, (on_nodes N !! u) as [a|] eqn:Ea; try done.
  pose proof (Hg c y a eq_refl Hu) as Hr. unfold fput. split; cbn.
  - by rewrite Hf, (grelated_st _ _ Hu), (grelated_st _ _ Hr).
  - by apply nodes_insert.
Qed.

Lemma ref_req (c : gconf P) e : FineFacts.refines (Task := gtask) same (m_request_prog c e) (request_prog c e).
Proof. destruct e; cbn; try (apply ref_ret); [apply ref_object|apply ref_notif|apply ref_request]. Qed.

(** One step of a pool without requests is the step of a goroutine or the start of a task. *)
Lemma which (c : gconf P) (a a' : gpool) : pstep (start_task c) (λ _, False) (λ _ _, False) a a' ->
  (exists i, a' = thread_step i a) \/ (exists i, a' = task_start (start_task c) i a).
Proof.
  intros H. destruct H as [s l1 X f k l2 ts cr s' v Hf|s l1 t k l2 ts cr|s l1 v l2 ts cr|s l1 w l2 ts cr|s l ts1 t ts2 cr|s l ts cr q []|s s' l ts cr []].
  - left. exists (length l1). unfold thread_step. cbn. rewrite list_lookup_middle by done. by rewrite Hf, insert_mid.
  - left. exists (length l1). unfold thread_step. cbn. rewrite list_lookup_middle by done. by rewrite insert_mid.
  - left. exists (length l1). unfold thread_step. cbn. rewrite list_lookup_middle by done. by rewrite delete_mid.
  - left. exists (length l1). unfold thread_step. cbn. rewrite list_lookup_middle by done. by rewrite delete_mid.
  - right. exists (length ts1). unfold task_start. cbn. rewrite list_lookup_middle by done. by rewrite delete_mid.
Qed.

Lemma internal_rel (c : gconf P) y y' a : grelated y a -> internal c y y' -> exists a', grelated y' a' /\
  (a' = a \/ (exists i, a' = thread_step i a) \/ exists i, a' = task_start (start_task c) i a).
Proof.
  intros Hr Hi. destruct (sim_step1 same same_equiv _ _ (start_task c) (λ _, False) _ (ref_task c) (λ m (Hm : False), match Hm with end) (λ s s' k (Hm : False), match Hm with end) _ _ _ Hr Hi) as (a'&[->|Hs]&Hr').
  - exists a. auto.
  - exists a'. split; [done|]. right. by apply which.
Qed.

(** An internal step of gossiper [u] is matched by at most one internal step of [u]. *)
Lemma run_rel F N u c y y' : net_rel F N -> cfgs !! u = Some c -> fn_nodes F !! u = Some y -> internal c y y' ->
  exists a a', on_nodes N !! u = Some a /\ grelated y a /\ grelated y' a' /\
    ((net_rel (fput F u y y') N /\ a' = a) \/
     exists e, own_step e = true /\ onet_step cfgs N e = mkonet (<[u := a']> (on_nodes N)) (on_flight N ++ posts (drop (length (t_trace (p_st a))) (t_trace (p_st a'))))
               /\ net_rel (fput F u y y') (onet_step cfgs N e)).
Proof.
  intros [Hf Hn] Hc Hy Hi. pose proof (Hn u) as Hu. rewrite Hy in Hu. destruct (on_nodes N !! u) as [a|] eqn:Ea; [|done].
  destruct (internal_rel c y y' a Hu Hi) as (a'&Hr&Hw). exists a, a'. split; [done|]. split; [done|]. split; [done|].
  assert (forall N', on_nodes N' = <[u := a']> (on_nodes N) -> on_flight N' = (on_flight N ++ posts (drop (length (t_trace (p_st a))) (t_trace (p_st a'))))%list -> net_rel (fput F u y y') N') as Hrel.
  { intros N' E1 E2. split; cbn; [by rewrite E2, Hf, (grelated_st _ _ Hu), (grelated_st _ _ Hr)|]. rewrite E1. by apply nodes_insert. }
  destruct Hw as [->|[[i ->]|[i ->]]].
  - left. split; [|done]. split; cbn.
    + by rewrite Hf, (grelated_st _ _ Hu), (grelated_st _ _ Hr), drop_all, app_nil_r.
    + intros v. destruct (decide (u = v)) as [<-|Hv]; [by rewrite lookup_insert, Ea|]. rewrite lookup_insert_ne by done. apply Hn.
  - right. exists (ORun u i). split; [done|]. assert (onet_step cfgs N (ORun u i) = mkonet (<[u := thread_step i a]> (on_nodes N)) (on_flight N ++ posts (drop (length (t_trace (p_st a))) (t_trace (p_st (thread_step i a)))))) as E.
    { cbn [onet_step]. unfold oact. rewrite Hc. by destruct (on_nodes N !! u); simplify_eq. }
    split; [done|]. by apply Hrel; rewrite E.
  - right. exists (OStart u i). split; [done|]. assert (onet_step cfgs N (OStart u i) = mkonet (<[u := task_start (start_task c) i a]> (on_nodes N)) (on_flight N ++ posts (drop (length (t_trace (p_st a))) (t_trace (p_st (task_start (start_task c) i a)))))) as E.
    { cbn [onet_step]. unfold oact. rewrite Hc. by destruct (on_nodes N !! u); simplify_eq. }
    split; [done|]. by apply Hrel; rewrite E.
Qed.

Lemma label_rel F N e F' : net_rel F N -> fnet_step cfgs F (Some e) F' -> own_step e = false /\ net_rel F' (onet_step cfgs N e).
Proof.
  intros Hr Hs. inversion Hs as [|? u g|? i q Hq|? u p sec st]; subst; clear Hs; (split; [done|]); cbn [onet_step].
  - apply act_rel; [done|]. intros c y a _ Hy. apply related_add; [done|]. apply (ref_req c (Recv _ _)).
  - destruct Hr as [Hf Hn]. rewrite <- Hf, Hq. cbn zeta. assert (net_rel (mkfnet (fn_nodes F) (delete i (fn_flight F))) (mkonet (on_nodes N) (delete i (fn_flight F)))) as Hr' by done.
    destruct (arrival q) as [e|]; [|done]. apply act_rel; [done|]. intros c y a _ Hy. apply related_add; [done|]. apply ref_req.
  - apply act_rel; [done|]. intros c y a _ Hy. rewrite <- (grelated_st _ _ Hy). apply related_env; [apply same_equiv|done|]. intros k. apply same_clock. by eexists _, _, _.
Qed.

Lemma init_rel p sec st : net_rel (fnet_init cfgs p sec st) (onet_init cfgs p sec st).
Proof. split; [done|]. intros u. cbn. rewrite !lookup_fmap. destruct (cfgs !! u); cbn; [apply related_new|done]. Qed.

Lemma onet_run_app N l1 l2 : onet_run cfgs N (l1 ++ l2) = onet_run cfgs (onet_run cfgs N l1) l2.
Proof. unfold onet_run. by rewrite fold_left_app. Qed.

Lemma oeff_app N l1 l2 : oeffective_steps cfgs N (l1 ++ l2) = oeffective_steps cfgs N l1 + oeffective_steps cfgs (onet_run cfgs N l1) l2.
Proof. revert N. induction l1 as [|e l1 IH]; intros N; [done|]. cbn [app oeffective_steps]. rewrite IH. cbn [onet_run fold_left]. unfold onet_run. lia. Qed.
Lemma deliveries_app l1 l2 : deliveries (l1 ++ l2) = deliveries l1 + deliveries l2.
Proof. unfold deliveries. by rewrite filter_app, app_length. Qed.
Lemma deliver_eff F N e F' : net_rel F N -> fnet_step cfgs F (Some e) F' -> deliveries [e] <= oeffective_steps cfgs N [e].
Proof.
  intros [Hf _] Hs. inversion Hs as [|? u g|? i q Hq|? u p sec st]; subst; [apply Nat.le_0_l| |apply Nat.le_0_l].
  cbn [oeffective_steps]. rewrite decide_True; [apply le_n|]. cbn [oeffective]. rewrite <- Hf. by eapply lookup_lt_Some.
Qed.

Theorem net_sim p sec st l F : fnet_run_to cfgs (fnet_init cfgs p sec st) l F ->
  exists l', outside l' = l /\ net_rel F (onet_run cfgs (onet_init cfgs p sec st) l') /\ deliveries l <= oeffective_steps cfgs (onet_init cfgs p sec st) l'.
Proof.
  intros H. induction H as [|l F o F' H (l'&E&Hr&Hd) Hs]; [exists []; split; [done|split; [apply init_rel|done]]|].
  destruct o as [e|].
  - destruct (label_rel _ _ _ _ Hr Hs) as [Ho Hr']. exists (l' ++ [e])%list. split; [unfold outside in *; by rewrite filter_app, E, filter_cons_True|]. split; [by rewrite onet_run_app|].
    rewrite oeff_app. change (option_list (Some e)) with [e]. rewrite deliveries_app. apply Nat.add_le_mono; [done|]. exact (deliver_eff _ _ _ _ Hr Hs).
  - inversion Hs as [? u c y y' Hc Hy Hi| | |]; subst. cbn [option_list]. rewrite app_nil_r. destruct (run_rel _ _ _ _ _ _ Hr Hc Hy Hi) as (a&a'&_&_&_&[[Hr' _]|(e&Ho&_&Hr')]).
    + by exists l'.
    + exists (l' ++ [e])%list. split; [|split; [by rewrite onet_run_app|rewrite oeff_app; lia]]. unfold outside. rewrite filter_app, filter_cons_False by (by rewrite Ho). by rewrite app_nil_r.
Qed.

Lemma rel_looks F N : net_rel F N -> looks_like F N.
Proof.
  intros [Hf Hn]. split; [done|]. intros u. pose proof (Hn u) as Hu. destruct (fn_nodes F !! u) as [y|], (on_nodes N !! u) as [a|]; try done.
  destruct Hu as (E1&E2&E3&E4&hs&_&HF). pose proof (Forall3_length_lm _ _ _ _ HF). pose proof (Forall3_length_lr _ _ _ _ HF). by repeat split.
Qed.

Theorem network_as_if_atomic p sec st l F : fnet_run_to cfgs (fnet_init cfgs p sec st) l F ->
  exists l', outside l' = l /\ looks_like F (onet_run cfgs (onet_init cfgs p sec st) l').
Proof. intros H. destruct (net_sim _ _ _ _ _ H) as (l'&A&B&_). exists l'. split; [done|by apply rel_looks]. Qed.

Lemma looks_node F N u y : looks_like F N -> fn_nodes F !! u = Some y -> exists a : gpool, on_nodes N !! u = Some a /\ f_st y = p_st a /\ f_crashes y = p_crashes a.
Proof. intros [_ Hn] Hy. specialize (Hn u). rewrite Hy in Hn. destruct (on_nodes N !! u) as [a|]; [|done]. exists a. destruct Hn as (?&_&?&_). done. Qed.
Lemma looks_back F N u (a : gpool) : looks_like F N -> on_nodes N !! u = Some a -> exists y, fn_nodes F !! u = Some y /\ f_st y = p_st a.
Proof.
  intros [_ Hn] Ha. specialize (Hn u). destruct (fn_nodes F !! u) as [y|], (on_nodes N !! u) as [a'|]; try done. exists y. split; [done|]. injection Ha as ->. apply Hn.
Qed.
Lemma looks_quiet F N : looks_like F N -> fquiescent F -> oquiescent N.
Proof.
  intros [Hf Hn] [Q1 Q2]. split; [by rewrite <- Hf|]. intros u a Ha. specialize (Hn u). destruct (fn_nodes F !! u) as [y|] eqn:Ey, (on_nodes N !! u) as [a'|]; try done.
  injection Ha as ->. destruct Hn as (_&E2&_&_&E5). destruct (Q2 u y Ey) as [Q3 Q4]. rewrite Q3 in E5. split; [by destruct (p_threads a)|congruence].
Qed.
Lemma outside_allowed p Gs l : Forall (oallowed p Gs) (outside l) -> Forall (oallowed p Gs) l.
Proof.
  rewrite !Forall_forall. intros H e He. destruct (own_step e) eqn:Eo; [by destruct e|]. apply H. by apply elem_of_list_filter.
Qed.

Section honest.
Context (T : nat) (p : string) (Gs : list gobj) (HN : honest_network cfgs T) (HV : valid_statements cfgs p Gs).
Context (Ha : agg_correct P) (Hp : fast_perm P) (Hd : forall sg : bls_sig P, bls_deser (bls_ser sg) = Some sg).

Theorem fine_all_full sec st l F : fnet_run_to cfgs (fnet_init cfgs p sec st) l F -> Forall (oallowed p Gs) l -> fquiescent F ->
  forall u g, OHand u g ∈ l -> is_Some (cfgs !! u) ->
  (forall w y, fn_nodes F !! w = Some y -> NoDup (fragments_held p (f_st y) g)) ->
  forall v c, cfgs !! v = Some c -> exists y full, fn_nodes F !! v = Some y /\
    full_table (f_st y) g !! mkgid p (full_name g) (g_p0 g) = Some full /\ verify (gc_crypto c) full = Accept /\
    g_p1 full = g_p1 g /\ g_p2 full = g_p2 g /\ ToMonitor (gc_owner c) full ∈ t_trace (f_st y).
Proof.
  intros H Hl Hq u g Hin Hu Hnd v c Hv. destruct (network_as_if_atomic _ _ _ _ _ H) as (l'&E&HL). pose proof (looks_quiet _ _ HL Hq) as HQ.
  rewrite <- E in Hl, Hin. apply outside_allowed in Hl. apply elem_of_list_filter in Hin as [_ Hin].
  destruct (overlap_all_full cfgs T p Gs HN HV Ha Hp Hd sec st l' Hl HQ u g Hin Hu) with (v := v) (c := c) as (a&full&A&B); [|done|].
  - intros w a Hw. destruct (looks_back _ _ _ _ HL Hw) as (y&Hy&<-). by apply (Hnd w).
  - destruct (looks_back _ _ _ _ HL A) as (y&Hy&Es). exists y, full. rewrite Es. by split.
Qed.

Theorem fine_stored sec st l F : fnet_run_to cfgs (fnet_init cfgs p sec st) l F -> Forall (oallowed p Gs) l -> fquiescent F ->
  forall u g, OHand u g ∈ l -> is_Some (cfgs !! u) -> forall v c, cfgs !! v = Some c -> exists y, fn_nodes F !! v = Some y /\
    statement_table (f_st y) g !! get_id g = Some g /\ ToMonitor (gc_owner c) g ∈ t_trace (f_st y).
Proof.
  intros H Hl Hq u g Hin Hu v c Hv. destruct (network_as_if_atomic _ _ _ _ _ H) as (l'&E&HL). pose proof (looks_quiet _ _ HL Hq) as HQ.
  rewrite <- E in Hl, Hin. apply outside_allowed in Hl. apply elem_of_list_filter in Hin as [_ Hin].
  destruct (overlap_stored cfgs T p Gs HN HV Ha Hp Hd sec st l' Hl HQ u g Hin Hu v c Hv) as (a&A&B).
  destruct (looks_back _ _ _ _ HL A) as (y&Hy&Es). exists y. rewrite Es. by split.
Qed.

Theorem fine_unharmed sec st l F : fnet_run_to cfgs (fnet_init cfgs p sec st) l F -> Forall (oallowed p Gs) l ->
  forall v y, fn_nodes F !! v = Some y -> f_crashes y = [] /\ f_dead y = false /\ t_black (f_st y) = ∅.
Proof.
  intros H Hl v y Hy. destruct (network_as_if_atomic _ _ _ _ _ H) as (l'&E&HL). rewrite <- E in Hl. apply outside_allowed in Hl.
  destruct (looks_node _ _ _ _ HL Hy) as (a&A&->&->). destruct (overlap_unharmed cfgs T p Gs HN HV Ha Hp Hd sec st l' Hl v a A) as [? ?]. split; [done|]. split; [|done].
  destruct HL as [_ HL]. specialize (HL v). rewrite Hy in HL. destruct (on_nodes _ !! v); [|done]. by destruct HL as (_&_&_&?&_).
Qed.

Theorem fine_traffic (Hnb : forall u c, cfgs !! u = Some c -> NoDup (gc_neighbours c)) sec st l F : fnet_run_to cfgs (fnet_init cfgs p sec st) l F ->
  Forall (oallowed p Gs) l -> deliveries l <= length Gs * statement_traffic (size cfgs) T.
Proof.
  intros H Hl. destruct (net_sim _ _ _ _ _ H) as (l'&E&_&HD). rewrite <- E in Hl. apply outside_allowed in Hl. etransitivity; [exact HD|].
  by apply (overlap_traffic_bound cfgs T p Gs HN HV Ha Hp Hd Hnb sec st l').
Qed.
End honest.
End fnet.

Section fworld.
Context {P : prims} (z : gzip) (x : CA.x509lib) (S : sysconf P).
Notation cfgs := (sy_gossipers S).
Notation wstep := (wstep z x S).
Notation wrun := (wrun z x S).

Definition report_of (N : onet) (uy : string * gpool) : list mail :=
  match on_nodes N !! uy.1 with
  | Some y => reports (drop (length (t_trace (p_st y))) (t_trace (p_st uy.2)))
  | None => []
  end.
Lemma reports_none (N : onet) (l : list (string * gpool)) :
  (forall u y y', (u, y') ∈ l -> on_nodes N !! u = Some y -> t_trace (p_st y') = t_trace (p_st y)) -> concat (map (report_of N) l) = [].
Proof.
  induction l as [|[u y'] l IH]; intros H; [done|]. cbn [map concat]. rewrite IH by (intros; eapply H; [by right|done]). rewrite app_nil_r. unfold report_of. cbn [fst snd].
  destruct (on_nodes N !! u) as [y|] eqn:E; [|done]. rewrite (H u y y' (elem_of_list_here _ _) E). by rewrite drop_all.
Qed.
Lemma quiet_reports N N' : (forall u y y', on_nodes N' !! u = Some y' -> on_nodes N !! u = Some y -> t_trace (p_st y') = t_trace (p_st y)) -> new_reports N N' = [].
Proof. intros H. apply reports_none. intros u y y' Hin. apply H. by apply elem_of_map_to_list. Qed.
Lemma one_report_list N u a a' (L : list (string * gpool)) : on_nodes N !! u = Some a -> NoDup L.*1 -> (u, a') ∈ L ->
  (forall v y', (v, y') ∈ L -> v <> u -> on_nodes N !! v = Some y') ->
  concat (map (report_of N) L) = reports (drop (length (t_trace (p_st a))) (t_trace (p_st a'))).
Proof.
  intros Ha Hnd Hin Hold. apply elem_of_list_split in Hin as (l1&l2&->). rewrite map_app, concat_app. cbn [map concat].
  assert (forall v y', (v, y') ∈ l1 \/ (v, y') ∈ l2 -> v <> u) as Hne.
  { rewrite fmap_app, fmap_cons in Hnd. cbn [fst] in Hnd. apply NoDup_app in Hnd as (_&H1&H2). apply NoDup_cons in H2 as [H2 _].
    intros v y' [H|H] ->; [apply (H1 u); [change u with (u, y').1; by apply elem_of_list_fmap_1|left]|]. apply H2. change u with (u, y').1. by apply elem_of_list_fmap_1. }
  pose proof (reports_none N l1) as R1. pose proof (reports_none N l2) as R2. unfold gpool in *. rewrite R1, R2; clear R1 R2.
  - rewrite app_nil_r. cbn [app]. unfold report_of. cbn [fst snd]. unfold gpool in *. by rewrite Ha.
  - intros v y y' Hv Hy. rewrite (Hold v y') in Hy; [congruence|apply elem_of_app; right; by right|eauto].
  - intros v y y' Hv Hy. rewrite (Hold v y') in Hy; [congruence|apply elem_of_app; by left|eauto].
Qed.
Lemma one_report N u a a' fl : on_nodes N !! u = Some a ->
  new_reports N (mkonet (<[u := a']> (on_nodes N)) fl) = reports (drop (length (t_trace (p_st a))) (t_trace (p_st a'))).
Proof.
  intros Ha. apply (one_report_list N u); [done|apply NoDup_fst_map_to_list|apply elem_of_map_to_list, lookup_insert|].
  intros v y' H Hne. apply elem_of_map_to_list in H. cbn [on_nodes] in H. by rewrite lookup_insert_ne in H.
Qed.

Lemma same_node N (u : string) (y y' : gpool) : on_nodes N !! u = Some y' -> on_nodes N !! u = Some y -> t_trace (p_st y') = t_trace (p_st y).
Proof. intros E1 E2. assert (Some y' = Some y) as [= ->]; [|done]. etransitivity; [symmetry; exact E1|exact E2]. Qed.
Lemma act_quiet N u f : (forall c y, t_trace (p_st (f c y)) = t_trace (p_st y)) -> new_reports N (oact cfgs N u f) = [].
Proof.
  intros H. apply quiet_reports. intros v y y'. unfold oact. destruct (cfgs !! u) as [c|]; [|apply same_node]. destruct (on_nodes N !! u) as [a|] eqn:Ea; [|apply same_node].
  cbn [on_nodes]. rewrite lookup_insert_Some. intros [[<- <-]|[_ E1]] E2; [|by apply (same_node N v)]. rewrite H. by apply (same_node N u).
Qed.
Lemma outside_quiet N e : own_step e = false -> new_reports N (onet_step cfgs N e) = [].
Proof.
  intros He. destruct e; try done; cbn [onet_step].
  - by apply act_quiet.
  - destruct (on_flight N !! i) as [q|]; [|apply quiet_reports; apply same_node]. cbn zeta. destruct (arrival q) as [e|]; [|apply quiet_reports; cbn [on_nodes]; apply same_node].
    apply (act_quiet (mkonet (on_nodes N) (delete i (on_flight N)))). done.
  - apply act_quiet. intros c y. by destruct y as [[]].
Qed.

(** What happens elsewhere does not depend on the gossipers. *)
Ltac nets W N :=
  change (w_mail (set_net W N)) with (w_mail W); change (w_mons (set_net W N)) with (w_mons W); change (w_loggers (set_net W N)) with (w_loggers W);
  change (w_cas (set_net W N)) with (w_cas W); change (w_clients (set_net W N)) with (w_clients W).
Lemma mon_event_net W N mon e : mon_event z S (set_net W N) mon e = set_net (mon_event z S W mon e) N.
Proof.
  unfold mon_event. nets W N. destruct (sy_monitors S !! mon) as [[c u]|]; [|done]. destruct (w_mons W !! mon) as [s|]; [|done].
  by destruct (Monitor.mstep z c s e) as [[s' o]|].
Qed.
Lemma ask_net W N mon f url m : ask (set_net W N) mon f url m = set_net (ask W mon f url m) N.
Proof.
  unfold ask. nets W N. destruct f; [..|done].
  - destruct (w_loggers W !! url) as [s|]; [|done]. by destruct (Logger.request_sth s m).
  - destruct (w_cas W !! url) as [s|]; [|done]. by destruct (CA.request_rev s m).
Qed.
Lemma ca_event_net W N ca e : ca_event z x S (set_net W N) ca e = set_net (ca_event z x S W ca e) N.
Proof. unfold ca_event. nets W N. destruct (sy_cas S !! ca) as [[c cc]|]; [|done]. by destruct (w_cas W !! ca). Qed.
Lemma receive_net W N y m : match y with ToGossip _ _ => False | _ => True end -> receive z S (set_net W N) y m = set_net (receive z S W y m) N.
Proof.
  intros H. destruct y; try done; unfold receive; nets W N; try apply mon_event_net; try apply ask_net.
  - by destruct (w_loggers W !! _).
  - destruct (sy_cas S !! _) as [[c cc]|]; [|done]. by destruct (w_cas W !! _).
  - by destruct (w_cas W !! _).
Qed.
Lemma elsewhere_net W N e : elsewhere W e -> wstep (set_net W N) e = set_net (wstep W e) N.
Proof.
  intros H. destruct e; try done; unfold System.wstep; nets W N; try (by apply ca_event_net).
  - cbn in H. destruct (w_mail W !! i) as [y|]; [|done]. rewrite <- receive_net; [done|]. by destruct y.
  - by destruct (w_mail W !! i).
  - destruct (sy_loggers S !! l) as [c|]; [|done]. destruct (w_loggers W !! l) as [s|]; [|done]. destruct (Logger.publish _ _ _ _ _ _) as [[s' ms] ok]. done.
  - by destruct (w_loggers W !! l).
  - destruct (sy_cas S !! ca) as [[c cc]|]; [|done]. destruct (w_cas W !! ca) as [s|]; [|done]. destruct (CA.issue _ _ _ _) as [[s' a] ms]. done.
  - destruct (own_event e); [|done]. apply mon_event_net.
  - destruct (sy_clients S !! cl) as [cc|]; [|done]. destruct (w_clients W !! cl) as [s|]; [|done]. destruct (w_mons W !! mon) as [ms|]; [|done].
    destruct (_ ≫= _) as [u|]; [|done]. by destruct (Client.handle_update _ _ _ _ _).
Qed.
Lemma elsewhere_quiet W e : elsewhere W e -> gossip_step e = false.
Proof. by destruct e. Qed.

Definition sys_rel (F : fworld) (W : world) : Prop := net_rel (fw_net F) (w_net W) /\ set_net W (w_net (fw_rest F)) = fw_rest F.

Lemma set_net_twice W N N' : set_net (set_net W N) N' = set_net W N'.
Proof. done. Qed.
Lemma set_net_id W : set_net W (w_net W) = W.
Proof. by destruct W. Qed.
Lemma elsewhere_keeps W e : elsewhere W e -> w_net (wstep W e) = w_net W.
Proof. intros H. rewrite <- (set_net_id W) at 1. by rewrite elsewhere_net. Qed.

Lemma send_nil W : send W [] = W.
Proof. destruct W. unfold send, set_mail. cbn. by rewrite app_nil_r. Qed.
Lemma with_quiet W e : own_step e = false -> with_net W (onet_step cfgs (w_net W) e) = set_net W (onet_step cfgs (w_net W) e).
Proof. intros H. unfold with_net. by rewrite outside_quiet, send_nil. Qed.

Lemma sys_step F W o F' : sys_rel F W -> fw_step z x S F o F' ->
  exists l, system_outside l = option_list o /\ (l = [] \/ exists e, l = [e]) /\ sys_rel F' (wrun W l).
Proof.
  intros [Hn Hw] Hs. destruct Hs as [N R u c y y' Hc Hy Hi|N R e N' He Hs|N R i m u g N' Hm Hs|N R p|N R e He]; cbn [fw_net fw_rest] in *.
  - destruct (run_rel cfgs _ _ _ _ _ _ Hn Hc Hy Hi) as (a&a'&Ha&Hra&Hra'&[[Hr ->]|(e&He&E&Hr)]).
    + exists []. split; [done|]. split; [by left|]. split; [done|]. cbn [fw_rest]. rewrite (grelated_st _ _ Hra'), (grelated_st _ _ Hra), drop_all. cbn. by rewrite send_nil.
    + exists [EGossip e]. split; [unfold system_outside; rewrite filter_cons_False; [done|cbn; by rewrite He]|]. split; [by right; eexists|].
      assert (inner_event e = true) as Hin by by destruct e. cbn [System.wrun fold_left]. cbn [System.wstep]. rewrite Hin.
      split; cbn [fw_net fw_rest]; [done|]. unfold with_net. rewrite E at 2. rewrite (one_report _ _ _ _ _ Ha), (grelated_st _ _ Hra'), (grelated_st _ _ Hra).
      rewrite <- Hw at 2. done.
  - destruct (label_rel cfgs _ _ _ _ Hn Hs) as [Ho Hr]. exists [EGossip e]. split; [unfold system_outside; by rewrite filter_cons_True|]. split; [by right; eexists|].
    cbn [System.wrun fold_left]. cbn [System.wstep]. rewrite He, with_quiet by done. split; [done|]. cbn [fw_rest]. by rewrite set_net_twice.
  - destruct (label_rel cfgs _ _ _ _ Hn Hs) as [Ho Hr]. exists [EDeliver i m]. split; [done|]. split; [by right; eexists|].
    assert (w_mail W = w_mail R) as Em by by rewrite <- Hw.
    cbn [System.wrun fold_left]. cbn [System.wstep]. rewrite Em, Hm. cbn [receive]. rewrite with_quiet by done. split; [done|]. cbn [fw_rest]. rewrite set_net_twice.
    by rewrite <- Hw.
  - exists [EPost p]. split; [done|]. split; [by right; eexists|]. destruct Hn as [Hf Hn]. split; cbn; [|by rewrite Hw at 1]. split; cbn; [by rewrite Hf|done].
  - exists [e]. split; [unfold system_outside; rewrite filter_cons_True; [done|by eapply elsewhere_quiet]|]. split; [by right; eexists|]. cbn [System.wrun fold_left].
    assert (elsewhere W e) as He'. { rewrite <- Hw in He. destruct e; done. }
    split; cbn [fw_net fw_rest].
    + by rewrite elsewhere_keeps.
    + rewrite elsewhere_keeps by done. rewrite <- elsewhere_net by done. by rewrite Hw.
Qed.

Lemma sys_rest F W : sys_rel F W -> same_rest (fw_rest F) W.
Proof. intros [_ Hw]. by rewrite <- Hw. Qed.
Lemma sys_looks F W : sys_rel F W -> system_looks_like F W.
Proof. intros H. split; [apply rel_looks, H|by apply sys_rest]. Qed.

Lemma sys_sim p sec st lt ct h F : let W0 := world_init x S p sec st lt ct in fw_run_to z x S (fw_init x S p sec st lt ct) h F ->
  exists l, same_history z x S W0 h l /\ sys_rel F (wrun W0 l).
Proof.
  intros W0 H. induction H as [|h F o F' H (l&[E EH]&Hr) Hs].
  - exists []. split; [split; [done|]|split; [apply init_rel|done]]. intros l1 e l2 E. by destruct l1.
  - destruct (sys_step _ _ _ _ Hr Hs) as (l2&E2&Hone&Hr2). exists (l ++ l2)%list. split; [|by rewrite wrun_app].
    split; [unfold system_outside in *; rewrite filter_app, E, E2, fmap_app; by destruct o|].
    intros la e lb Es He. destruct Hone as [->|[e' ->]].
    + rewrite app_nil_r in Es. destruct o; [done|]. rewrite app_nil_r. by apply (EH la e lb).
    + destruct lb as [|e2 lb _] using rev_ind.
      * apply app_inj_tail in Es as [<- <-]. unfold system_outside in E2. rewrite filter_cons_True in E2 by done. destruct o; [|done]. injection E2 as <-.
        exists h, (fw_rest F), []. split; [done|]. split; [done|]. by apply sys_rest.
      * rewrite app_comm_cons, app_assoc in Es. apply app_inj_tail in Es as [-> ->]. destruct (EH la e lb eq_refl He) as (h1&R&h2&->&A&B).
        exists h1, R. eexists. split; [by rewrite <- app_assoc, <- app_comm_cons|done].
Qed.

Theorem system_as_if_atomic p sec st lt ct h F : let W0 := world_init x S p sec st lt ct in fw_run_to z x S (fw_init x S p sec st lt ct) h F ->
  exists l, same_history z x S W0 h l /\ system_looks_like F (wrun W0 l).
Proof. intros W0 H. destruct (sys_sim _ _ _ _ _ _ _ H) as (l&A&B). exists l. split; [done|by apply sys_looks]. Qed.

Lemma outside_in e l : gossip_step e = false -> e ∈ l -> e ∈ system_outside l.
Proof. intros H1 H2. by apply elem_of_list_filter. Qed.
Lemma outside_pubs e l : publications e (system_outside l) = publications e l.
Proof.
  induction l as [|ev l IH]; [done|]. unfold system_outside in *. destruct (gossip_step ev) eqn:E.
  - rewrite filter_cons_False by (by rewrite E). rewrite IH. destruct ev; done.
  - rewrite filter_cons_True by done. unfold publications in *. destruct ev; cbn; rewrite ?IH; done.
Qed.

Theorem fine_logger_safe p sec st lt ct e c h F : logger_identity S e c -> (lt e).1 = 0%Z -> fw_run_to z x S (fw_init x S p sec st lt ct) h F ->
  outsiders_silent e h.*1 -> NoDup (publications e h.*1) -> fw_timely Datatypes.S e h -> fw_unconvicted e F.
Proof.
  intros Hid Hlt Hh [O1 O2] Hp [T1 T2]. destruct (sys_sim _ _ _ _ _ _ _ Hh) as (l&[E EH]&Hr). set (W0 := world_init x S p sec st lt ct) in *.
  assert (unconvicted e (wrun W0 l)) as (U1&U2&U3&U4).
  { apply (normal_logger_safe z x S p sec st lt ct e c l); [done|done| | |].
    - rewrite <- E in O1, O2. split; [intros y Hy; apply O1; by apply outside_in|intros u path g Hy; apply (O2 u path); by apply outside_in].
    - by rewrite <- outside_pubs, E.
    - split.
      + intros l1 i m l2 mon f El Hm. destruct (EH l1 _ l2 El eq_refl) as (h1&R&h2&Eh&Eo&El'&_&_&_&Em). fold W0 in Hm |- *. rewrite <- Em in Hm. rewrite <- El'.
        destruct (T1 _ _ _ _ _ _ _ Eh Hm) as (A&t&t1&t2&B&C). split; [done|]. exists t, t1, t2. split; [|done].
        rewrite <- Eo in B. by apply elem_of_list_filter in B as [_ B].
      + intros l1 i l2 y El Hm. destruct (EH l1 _ l2 El eq_refl) as (h1&R&h2&Eh&Eo&_&_&_&_&Em). fold W0 in Hm. rewrite <- Em in Hm. by eapply T2. }
  destruct (sys_rest _ _ Hr) as (_&_&E3&E4&E5). split; [|by rewrite E3, E4, E5].
  intros u y Hy. destruct Hr as [[_ Hn] _]. specialize (Hn u). rewrite Hy in Hn. destruct (on_nodes _ !! u) as [a|] eqn:Ea; [|done].
  rewrite (grelated_st _ _ Hn). by apply (U1 u).
Qed.
End fworld.
