(** Honest networks with overlapping handlers. *)
From Verif Require Import Bytes Hex Json Types Crypto Verify Prog Gossiper Network Overlap SpecCodec SpecVerify SpecGossiper SpecNetwork SpecOverlap ProgFacts Duty GstFacts CodecFacts CryptoFacts VerifyFacts GWalk GossiperInv GossiperSeq GossiperEvidence GossiperStep GossiperFrag GossiperMore NetworkNode NetworkFacts OverlapNode.
From Coq Require Import Lia.
Open Scope string_scope.

Section net.
Context {P : prims} (cfgs : gmap string (gconf P)) (T : nat) (p : string) (Gs : list gobj).
Context (HN : honest_network cfgs T) (HG : valid_statements cfgs p Gs).
Context (Hagg : agg_correct P) (Hperm : fast_perm P) (Hdeser : forall sg : bls_sig P, bls_deser (bls_ser sg) = Some sg).

Notation bucket := (bucket p).
Notation J := (J cfgs T p Gs).
Notation grows := (grows p Gs).
Notation owed c := (owed (GI c) J grows).
Notation pool_good c := (pool_good (GI c) GR Gtok (λ w, w = NilDeref) J grows (tok Gs) (due T p Gs c) (budget p Gs c) spent 1).
Notation Good c := (good (GI c) J grows (tok Gs) (due T p Gs c) (budget p Gs c) spent 1).
Notation pays c := (pays (GI c) J grows).
Notation d_got := (d_got T p).
Notation urls := (urls cfgs).

(** ** Changes at one gossiper *)
Definition keeps (c : gconf P) (y y' : gpool) : Prop := forall g, g ∈ Gs ->
  (owed c (d_head g) y -> owed c (d_head g) y') /\ (forall o, owed c (d_got g o) y -> owed c (d_got g o) y').

Section safety.
Context (c : gconf P).
Lemma s_pre : PreOrder GR. Proof using c. apply (w_pre _ _ _ _ _ _ _ (walk_GI c)). Qed.
Lemma s_stable t s s' : Gtok t s -> GR s s' -> Gtok t s'.
Proof using c. apply (w_tok _ _ _ _ _ _ _ (walk_GI c)). Qed.
Lemma s_starts t s : Gtok t s -> safe (GI c) GR Gtok (λ w, w = NilDeref) (λ _ _, True) (start_task c t) s.
Proof using. intros H. by eapply s_start; [apply walk_GI|]. Qed.
Lemma s_requests q s : grequest c q -> GI c s -> safe (GI c) GR Gtok (λ w, w = NilDeref) (λ _ _, True) q s.
Proof using.
  intros Hp HI. destruct Hp.
  - by eapply s_object; [apply walk_GI|..].
  - eapply s_notification; [apply walk_GI|]. intros. by apply GI_trace1.
  - eapply s_request; [apply walk_GI|]. intros s0 s2 i o url I0 Ho HR HI2. apply GI_trace1; auto; [done|]. cbn. right.
    destruct I0 as (_ & H2 & _). apply H2 in Ho as (Hv & _ & Ht). split; [done|]. right. by left.
  - by apply periodic_GI.
Qed.
Lemma s_env s s' : clock_step s s' -> GI c s -> GI c s' /\ GR s s'.
Proof using. intros (q & sec & st & ->) HI. apply GI_frame; auto; intros; by autorewrite with gst. Qed.
End safety.

Lemma node_run c n i y : pool_good c n y -> pool_good c n (thread_step i y) /\ grows (p_st y) (p_st (thread_step i y)) /\ keeps c y (thread_step i y).
Proof using.
  intros Hy. destruct (thread_good (start_task c) (GI c) GR Gtok (λ w, w = NilDeref) J grows (tok Gs) (PreOrder0:=s_pre c) (due T p Gs c) (budget p Gs c) spent 1
    (due_lasting T p Gs c) (grequest c) clock_step (s_stable c) (s_starts c) (s_requests c) (s_env c) n i y Hy) as (A1 & A2 & _ & A3).
  split_and!; auto. intros g Hg. split; [|intros o]; apply A3; [by apply head_lasting|by apply got_lasting].
Qed.

Lemma node_add c n q y : grequest c q -> pool_good c n y -> Good c 0 q (p_st y) ->
  pool_good c n (thread_add q y) /\ (forall d, pays c d q (p_st y) -> owed c d (thread_add q y)) /\ keeps c y (thread_add q y).
Proof using.
  intros Hq Hy Hg. destruct (add_good (start_task c) (GI c) GR Gtok (λ w, w = NilDeref) J grows (tok Gs) (PreOrder0:=s_pre c) (due T p Gs c) (budget p Gs c) spent 1
    (due_lasting T p Gs c) (grequest c) clock_step (s_stable c) (s_starts c) (s_requests c) (s_env c) n q y Hq Hy Hg) as (A1 & A2 & A3).
  split_and!; auto. intros g Hh. split; [|intros o]; apply A3.
Qed.

Lemma node_start u c n i y : cfgs !! u = Some c -> pool_good c n y ->
  pool_good c (if decide (i < length (p_tasks y)) then S n else n) (task_start (start_task c) i y) /\
  p_st (task_start (start_task c) i y) = p_st y /\ keeps c y (task_start (start_task c) i y).
Proof using All.
  intros Hu Hy. destruct (start_good (start_task c) (GI c) GR Gtok (λ w, w = NilDeref) J grows (tok Gs) (PreOrder0:=s_pre c) (due T p Gs c) (budget p Gs c) spent 1
    (due_lasting T p Gs c) (grequest c) clock_step (s_stable c) (s_starts c) (s_requests c) (s_env c) n i y Hy) as (A1 & A2).
  - intros t Ht. by eapply good_timer.
  - intros d t Hd Ht Hk. destruct Hd; cbn in Ht; try done. subst t. by apply (pays_timer cfgs T p Gs HN HG Hagg Hperm Hdeser u c Hu).
  - split_and!; auto. intros g Hg. split; [|intros o]; (eapply owed_start; [exact Hy|by intros t []]).
Qed.

Lemma node_tick c n y sec st : pool_good c n y -> let y' := mkpool (set_clock (p_st y) p sec st) (p_threads y) (p_tasks y) (p_crashes y) in
  pool_good c n y' /\ grows (p_st y) (p_st y') /\ keeps c y y'.
Proof using.
  intros Hy y'. pose proof (pg_inv _ _ _ _ _ _ _ _ _ _ _ _ _ Hy) as HJ.
  assert (frame cfgs p Gs (p_st y) (set_clock (p_st y) p sec st) []) as F.
  { split; intros; autorewrite with gst; auto; [by rewrite (j_period _ _ _ _ _ HJ)|by rewrite app_nil_r|by apply elem_of_nil in H..]. }
  destruct (env_good (start_task c) (GI c) GR Gtok (λ w, w = NilDeref) J grows (tok Gs) (PreOrder0:=s_pre c) (due T p Gs c) (budget p Gs c) spent 1
    (due_lasting T p Gs c) (grequest c) clock_step (s_stable c) (s_starts c) (s_requests c) (s_env c) n y (set_clock (p_st y) p sec st)) as (A1 & _ & A3); auto.
  - by eexists _, _, _.
  - by eapply frame_J.
  - by eapply frame_grows.
  - rewrite (frame_spent _ _ _ _ _ _ F). cbn. lia.
  - by eapply frame_budget.
  - intros d. by eapply frame_when.
  - split_and!; auto; [by eapply frame_grows|]. intros g Hg. split; [|intros o]; apply A3; [by apply head_lasting|by apply got_lasting].
Qed.

(** ** The invariant *)
Definition arrived (c : gconf P) (z : gpool) (q : post) : Prop := forall g, g ∈ Gs ->
  (q = init_post (po_to q) g -> owed c (d_head g) z) /\
  (forall v d, cfgs !! v = Some d -> q = frag_post (po_to q) g (the_frag d g) -> owed c (d_got g (the_frag d g)) z).
Definition spent_at (N : onet) (u : string) : nat := from_option (λ y : gpool, spent (p_st y)) 0 (on_nodes N !! u).

Lemma spent_at_eq N u (y : gpool) : on_nodes N !! u = Some y -> spent_at N u = spent (p_st y).
Proof using. intros H. unfold spent_at. by rewrite H. Qed.

Record OI (E : nat) (fires : string -> nat) (hd : list (string * gobj)) (N : onet) : Prop := mkOI {
  oi_dom : forall u, is_Some (on_nodes N !! u) <-> is_Some (cfgs !! u);
  oi_node : forall u c (y : gpool), cfgs !! u = Some c -> on_nodes N !! u = Some y -> pool_good c (fires u) y;
  oi_flight : forall q, q ∈ on_flight N -> good_post cfgs Gs q;
  oi_sent : forall u (y : gpool) q, on_nodes N !! u = Some y -> q ∈ posts (t_trace (p_st y)) -> q ∈ on_flight N \/
    forall c (z : gpool), cfgs !! po_to q = Some c -> on_nodes N !! po_to q = Some z -> arrived c z q;
  oi_hand : forall u g c (y : gpool), (u, g) ∈ hd -> cfgs !! u = Some c -> on_nodes N !! u = Some y -> g ∈ Gs /\ owed c (d_head g) y;
  oi_count : E + length (on_flight N) = sumf (λ u, spent_at N u + fires u) urls
}.

Lemma keeps_arrived c y y' q : keeps c y y' -> arrived c y q -> arrived c y' q.
Proof using.
  intros Hk Ha g Hg. destruct (Hk g Hg) as [K1 K2], (Ha g Hg) as [A1 A2]. split; [by intros E; apply K1, A1|].
  intros v d Hv E. apply K2. by eapply A2.
Qed.

Lemma preserve E E' fires hd N u c (y y' : gpool) F n' : OI E fires hd N -> cfgs !! u = Some c -> on_nodes N !! u = Some y ->
  pool_good c n' y' -> grows (p_st y) (p_st y') -> keeps c y y' ->
  (forall q, q ∈ F -> q ∈ on_flight N) ->
  (forall q, q ∈ on_flight N -> q ∈ F \/ po_to q = u /\ arrived c y' q) ->
  E' + length F + fires u = E + length (on_flight N) + n' ->
  OI E' (λ v, if decide (v = u) then n' else fires v) hd
    (mkonet (<[u := y']> (on_nodes N)) (F ++ posts (drop (length (t_trace (p_st y))) (t_trace (p_st y')))))%list.
Proof using.
  intros [A1 A2 A3 A4 A5 A6] Hu Hy Hy' Hg Hk HF HF' HE.
  destruct (gr_trace _ _ _ _ Hg) as [suf Es]. assert (drop (length (t_trace (p_st y))) (t_trace (p_st y')) = suf) as -> by (by rewrite Es, drop_app).
  pose proof (pg_inv _ _ _ _ _ _ _ _ _ _ _ _ _ Hy') as HJ.
  split; cbn [on_nodes on_flight].
  - intros v. destruct (decide (v = u)) as [->|Hn]; [rewrite lookup_insert|by rewrite lookup_insert_ne]. split; intros _; eauto.
  - intros v d z Hv Hz. destruct (decide (v = u)) as [->|Hn].
    + rewrite lookup_insert in Hz. injection Hz as <-. assert (d = c) as -> by congruence. done.
    + rewrite lookup_insert_ne in Hz by done. by apply A2.
  - intros q Hq. apply elem_of_app in Hq as [Hq|Hq]; [by apply A3, HF|]. apply (j_posts _ _ _ _ _ HJ). rewrite Es, posts_app. apply elem_of_app. by right.
  - intros v z q Hz Hq.
    assert (q ∈ posts suf \/ exists v z, on_nodes N !! v = Some z /\ q ∈ posts (t_trace (p_st z))) as [Hnew|(v' & z' & Hz' & Hq')].
    { destruct (decide (v = u)) as [->|Hn].
      - rewrite lookup_insert in Hz. injection Hz as <-. rewrite Es, posts_app in Hq. apply elem_of_app in Hq as [Hq|Hq]; [right; eauto|by left].
      - rewrite lookup_insert_ne in Hz by done. right. eauto. }
    { left. apply elem_of_app. by right. }
    destruct (A4 v' z' q Hz' Hq') as [Hin|Harr].
    + destruct (HF' q Hin) as [?|[Eq Ha]]; [left; apply elem_of_app; by left|]. right. rewrite Eq. intros d z'' Hd. rewrite lookup_insert. intros [= <-].
      by assert (d = c) as -> by congruence.
    + right. intros d z'' Hd. destruct (decide (po_to q = u)) as [Eq|Hn].
      * rewrite Eq, lookup_insert in *. intros [= <-]. assert (d = c) as -> by congruence. eapply keeps_arrived; [exact Hk|]. by apply Harr.
      * rewrite lookup_insert_ne by done. by apply Harr.
  - intros v g d z Hin Hd. destruct (decide (v = u)) as [->|Hn].
    + rewrite lookup_insert. intros [= <-]. assert (d = c) as -> by congruence. destruct (A5 u g c y Hin Hu Hy) as [Hg' Ho]. split; [done|]. by apply (Hk g Hg').
    + rewrite lookup_insert_ne by done. by apply A5.
  - assert (u ∈ urls) as Hin by (apply urls_in; eauto).
    assert (NoDup urls) as Hnd by apply NoDup_fst_map_to_list.
    pose proof (sumf_update (λ v, spent_at N v + fires v) (λ v, spent_at (mkonet (<[u:=y']> (on_nodes N)) (F ++ posts suf)) v + (if decide (v = u) then n' else fires v)) urls u Hnd Hin) as Hs.
    feed specialize Hs.
    { intros v _ Hn. unfold spent_at. cbn [on_nodes]. rewrite lookup_insert_ne by done. by rewrite decide_False. }
    cbn beta in Hs. unfold spent_at in Hs at 2 4. cbn [on_nodes] in Hs. rewrite lookup_insert, Hy in Hs. cbn [from_option] in Hs. rewrite decide_True in Hs by done.
    assert (spent (p_st y') = spent (p_st y) + length (posts suf)) as Esp by (unfold spent; by rewrite Es, posts_app, app_length).
    rewrite app_length. lia.
Qed.

Definition gain (N : onet) (e : oevent) : nat := if decide (oeffective N e) then 1 else 0.
Definition hand_of (e : oevent) : list (string * gobj) := match e with OHand u g => [(u, g)] | _ => [] end.

Lemma oact_eq N u c (y : gpool) f : cfgs !! u = Some c -> on_nodes N !! u = Some y ->
  oact cfgs N u f = mkonet (<[u := f c y]> (on_nodes N)) (on_flight N ++ posts (drop (length (t_trace (p_st y))) (t_trace (p_st (f c y)))))%list.
Proof using. intros E1 E2. unfold oact. by rewrite E1, E2. Qed.
Lemma oact_none N u f : cfgs !! u = None -> oact cfgs N u f = N.
Proof using. intros E1. unfold oact. by rewrite E1. Qed.

Lemma one_step E fires hd N e : OI E fires hd N -> oallowed p Gs e ->
  exists fires', OI (E + gain N e) fires' (hand_of e ++ hd) (onet_step cfgs N e).
Proof using All.
  intros HI He. pose proof HI as [A1 A2 A3 A4 A5 A6].
  assert (forall u, (exists c (y : gpool), cfgs !! u = Some c /\ on_nodes N !! u = Some y) \/ cfgs !! u = None) as Hcase.
  { intros u. destruct (cfgs !! u) as [c|] eqn:Hu; [left|by right]. destruct (proj2 (A1 u)) as [y Hy]; [by eexists|]. eauto. }
  destruct e as [u g|i|u i|u i|u q sec st]; unfold gain; cbn [oallowed oeffective onet_step hand_of app] in *.
  - rewrite decide_False by tauto. rewrite Nat.add_0_r. destruct (Hcase u) as [(c & y & Hu & Hy)|Hn].
    2: { rewrite oact_none by done. exists fires. split; auto. intros v h c y [[= -> ->]|Hin]%elem_of_cons; [congruence|by apply A5]. }
    rewrite (oact_eq _ _ c y) by done. cbn [request_prog]. rewrite (request_head cfgs p Gs HG u c Hu g He).
    assert (grequest c (handle c g)) as Hr by (rewrite <- (request_head cfgs p Gs HG u c Hu g He); constructor).
    destruct (node_add c (fires u) (handle c g) y Hr (A2 u c y Hu Hy)) as (B1 & B2 & B3); [by apply (good_init cfgs T p Gs HN HG u c Hu)|].
    pose proof (preserve E E fires hd N u c y (thread_add (handle c g) y) (on_flight N) (fires u) HI Hu Hy B1) as Hp.
    feed specialize Hp; [reflexivity|done|auto|auto|lia|].
    exists (λ v, if decide (v = u) then fires u else fires v). destruct Hp as [C1 C2 C3 C4 C5 C6]. split; [exact C1|exact C2|exact C3|exact C4| |exact C6]. intros v h d z [[= -> ->]|Hin]%elem_of_cons Hd.
    + cbn [on_nodes]. rewrite lookup_insert. intros [= <-]. assert (d = c) as -> by congruence. split; [done|]. apply B2. by apply (pays_init cfgs T p Gs HN HG u c Hu).
    + by apply C5.
  - destruct (on_flight N !! i) as [q|] eqn:Hq.
    2: { rewrite decide_False by (apply lookup_ge_None in Hq; lia). rewrite Nat.add_0_r. by exists fires. }
    rewrite decide_True by (by apply lookup_lt_Some in Hq).
    destruct (A3 q) as ([c Hu] & g & Hg & Hs); [by apply elem_of_list_lookup_2 in Hq|]. set (u := po_to q) in *.
    destruct (proj2 (A1 u)) as [y Hy]; [by eexists|].
    assert (exists x, arrival q = Some (Recv (Z.of_nat (len (gobj_marshal x))) x) /\ object_handler c (Z.of_nat (len (gobj_marshal x))) x = handle c x /\
      Good c 0 (handle c x) (p_st y) /\ forall z, (forall d, pays c d (handle c x) (p_st y) -> owed c d z) -> arrived c z q) as (x & E1 & E2 & E3 & E4).
    { destruct Hs as [Eq|(v & d & Hv & Eq)].
      - exists g. rewrite Eq at 1. unfold init_post. rewrite arrival_object by apply paths_known. split_and!; [done|by apply (request_head cfgs p Gs HG u c Hu)|by apply (good_init cfgs T p Gs HN HG u c Hu)|].
        intros z Hz h Hh. split.
        + intros Eh. fold u in Eh. rewrite Eq in Eh. injection Eh as _ <-. apply Hz. by apply (pays_init cfgs T p Gs HN HG u c Hu).
        + intros w e Hw Eh. fold u in Eh. rewrite Eq in Eh. injection Eh as Eh _. by apply paths_differ in Eh.
      - exists (the_frag d g). rewrite Eq at 1. unfold frag_post. rewrite arrival_object by apply paths_known.
        split_and!; [done|by apply (request_frag cfgs p Gs HG u c Hu v)| |].
        { apply (good_frag cfgs T p Gs HN HG Hagg Hperm Hdeser u c Hu _ v); auto. intros; by eexists. }
        intros z Hz h Hh. split.
        + intros Eh. fold u in Eh. rewrite Eq in Eh. injection Eh as Eh _. symmetry in Eh. by apply paths_differ in Eh.
        + intros w e Hw Eh. fold u in Eh. rewrite Eq in Eh. injection Eh as _ Eh. rewrite <- Eh.
          assert (g = h) as <-.
          { destruct (frag_fields cfgs p Gs HG d g Hg) as (F1 & _ & F2 & _). destruct (frag_fields cfgs p Gs HG e h Hh) as (F1' & _ & F2' & _).
            rewrite Eh in F1, F2. apply (same_id cfgs p Gs HG); auto; congruence. }
          apply Hz. by apply (pays_frag cfgs T p Gs HN HG Hdeser u c Hu _ v). }
    rewrite E1. cbn [request_prog]. rewrite (oact_eq _ _ c y) by done. cbn [on_nodes on_flight]. rewrite E2.
    assert (grequest c (handle c x)) as Hr by (rewrite <- E2; constructor).
    destruct (node_add c (fires u) (handle c x) y Hr (A2 u c y Hu Hy) E3) as (B1 & B2 & B3).
    eexists. apply (preserve E (E + 1) fires hd N u c y (thread_add (handle c x) y) (delete i (on_flight N)) (fires u) HI Hu Hy B1); [reflexivity|done| | |].
    + intros r. apply elem_of_delete.
    + intros r Hr'. destruct (elem_of_delete_or _ _ _ _ Hq Hr') as [?| ->]; [by left|]. right. split; [done|]. by apply E4.
    + pose proof (lookup_lt_Some _ _ _ Hq). rewrite length_delete by eauto. lia.
  - rewrite decide_False by tauto. rewrite Nat.add_0_r. destruct (Hcase u) as [(c & y & Hu & Hy)|Hn]; [|rewrite oact_none by done; by exists fires].
    rewrite (oact_eq _ _ c y) by done. destruct (node_run c (fires u) i y (A2 u c y Hu Hy)) as (B1 & B2 & B3).
    eexists. apply (preserve E E fires hd N u c y _ (on_flight N) (fires u) HI Hu Hy B1); auto; lia.
  - destruct (Hcase u) as [(c & y & Hu & Hy)|Hn].
    2: { rewrite decide_False. { rewrite Nat.add_0_r, oact_none by done. by exists fires. } intros (y & Hy & _).
         destruct (proj1 (A1 u)) as [? ?]; [by eexists|]. congruence. }
    rewrite (oact_eq _ _ c y) by done. destruct (node_start u c (fires u) i y Hu (A2 u c y Hu Hy)) as (B1 & B2 & B3).
    eexists. eapply (preserve E _ fires hd N u c y _ (on_flight N) _ HI Hu Hy B1); auto; [by rewrite B2|].
    destruct (decide (i < length (p_tasks y))) as [Hi|Hi].
    + rewrite decide_True by eauto. lia.
    + rewrite decide_False; [lia|]. intros (y' & Hy' & ?). pose proof (eq_trans (eq_sym Hy) Hy') as Ey. injection Ey as <-. done.
  - rewrite decide_False by tauto. rewrite Nat.add_0_r. subst q. destruct (Hcase u) as [(c & y & Hu & Hy)|Hn]; [|rewrite oact_none by done; by exists fires].
    rewrite (oact_eq _ _ c y) by done. destruct (node_tick c (fires u) y sec st (A2 u c y Hu Hy)) as (B1 & B2 & B3).
    eexists. apply (preserve E E fires hd N u c y _ (on_flight N) (fires u) HI Hu Hy B1); auto; lia.
Qed.
Lemma OI_init sec st : OI 0 (λ _, 0) [] (onet_init cfgs p sec st).
Proof using All.
  assert (forall u y, on_nodes (onet_init cfgs p sec st) !! u = Some y -> y = init_pool p sec st) as Hy.
  { intros u y. cbn. rewrite lookup_fmap. destruct (cfgs !! u); [by intros [= <-]|done]. }
  split.
  - intros u. cbn. by rewrite lookup_fmap, fmap_is_Some.
  - intros u c y Hu Hyu. apply Hy in Hyu as ->. split; cbn.
    + split_and!; cbn; auto. apply GI_init.
    + split; cbn; auto.
      * intros f i o _. destruct f; cbn; by rewrite lookup_empty.
      * intros g o _. unfold NetworkNode.bucket, get_object_list, frags_at. destruct (fm g); cbn; rewrite lookup_empty; by intros ?%elem_of_nil.
      * by intros q ?%elem_of_nil.
      * intros g x _. unfold fulls. destruct (fm g); cbn; by rewrite lookup_empty.
      * by intros v x ?%elem_of_nil.
    + exists []. split; [constructor|]. cbn. lia.
    + constructor.
    + assert (forall g, ~ holds (init_gst p sec st) g) as Hh by (intros g; unfold holds; destruct (fm g); cbn; by rewrite lookup_empty).
      assert (forall g, bucket (init_gst p sec st) g = []) as Hb.
      { intros g. unfold NetworkNode.bucket, get_object_list, frags_at. destruct (fm g); cbn; by rewrite lookup_empty. }
      intros d Hd Hw. exfalso. destruct Hd as [g Hg|g v Hg Hv|g Hg|g o v Hg Hv|g Hg|g x Hg]; cbn [du_when d_own d_send d_mon d_relay d_full d_fmon] in Hw.
      1-3: by apply (Hh g).
      * rewrite Hb in Hw. by apply elem_of_nil in Hw.
      * rewrite Hb in Hw. pose proof (hn_enough _ _ HN). cbn in Hw. lia.
      * unfold fulls in Hw. destruct (fm g); cbn in Hw; by rewrite lookup_empty in Hw.
    + done.
  - by intros q ?%elem_of_nil.
  - intros u y q Hyu. apply Hy in Hyu as ->. by intros ?%elem_of_nil.
  - by intros u g c y ?%elem_of_nil.
  - rewrite sumf_zero; [done|]. intros u _. unfold spent_at. destruct (on_nodes (onet_init cfgs p sec st) !! u) eqn:E; [|done]. by apply Hy in E as ->.
Qed.

Lemma run_OI E fires hd N l : OI E fires hd N -> Forall (oallowed p Gs) l ->
  exists fires' hd', OI (E + oeffective_steps cfgs N l) fires' hd' (onet_run cfgs N l) /\ (forall x, x ∈ hd -> x ∈ hd') /\
    (forall u g, OHand u g ∈ l -> (u, g) ∈ hd').
Proof using All.
  revert E fires hd N. induction l as [|e l IH]; intros E fires hd N HI Hl.
  - exists fires, hd. cbn. rewrite Nat.add_0_r. split; [done|]. split; [done|]. by intros u g ?%elem_of_nil.
  - apply Forall_cons in Hl as [He Hl]. destruct (one_step _ _ _ _ e HI He) as [f1 H1]. destruct (IH _ _ _ _ H1 Hl) as (f2 & hd2 & H2 & H3 & H4).
    exists f2, hd2. cbn [oeffective_steps]. rewrite Nat.add_assoc. split; [exact H2|]. split.
    + intros x Hx. apply H3. apply elem_of_app. by right.
    + intros u g Hin. apply elem_of_cons in Hin as [<-|Hin]; [|by apply H4]. apply H3. cbn. by left.
Qed.

(** ** Traffic *)
Lemma budget_le u c s : cfgs !! u = Some c -> GI c s -> budget p Gs c s <= length Gs * (1 + (1 + T) * length (gc_neighbours c)).
Proof using HN.
  intros Hu HI. rewrite <- sumf_const. apply sumf_le. intros g _. unfold OverlapNode.weight, OverlapNode.nb.
  pose proof (bucket_bound cfgs T p HN u c Hu s g HI) as Hb. apply (Nat.mul_le_mono_l _ _ (length (gc_neighbours c))) in Hb. destruct (decide _); lia.
Qed.

Lemma OI_bound E fires hd N : OI E fires hd N ->
  E <= length Gs * sumf (λ uc : string * gconf P, 1 + (1 + T) * length (gc_neighbours uc.2)) (map_to_list cfgs).
Proof using HN.
  intros [A1 A2 A3 A4 A5 A6]. transitivity (sumf (λ u, spent_at N u + fires u) urls); [lia|]. clear A6. unfold NetworkFacts.urls.
  assert (forall l : list (string * gconf P), (forall u c, (u, c) ∈ l -> cfgs !! u = Some c) ->
    sumf (λ u, spent_at N u + fires u) l.*1 <= length Gs * sumf (λ uc : string * gconf P, 1 + (1 + T) * length (gc_neighbours uc.2)) l) as H.
  { induction l as [|[u c] l IH]; intros Hl; [cbn; lia|]. cbn [fmap list_fmap sumf fst snd]. rewrite Nat.mul_add_distr_l. apply Nat.add_le_mono.
    - assert (cfgs !! u = Some c) as Hu by (apply Hl; by left). destruct (proj2 (A1 u)) as [y Hy]; [by eexists|].
      rewrite (spent_at_eq N u y Hy). destruct (A2 u c y Hu Hy) as [B1 B2 (ns & B3 & B4) _ _ _]. 
      pose proof (budget_le u c (p_st y) Hu (proj1 B1)). lia.
    - apply IH. intros v d Hin. apply Hl. by right. }
  apply H. intros u c. apply elem_of_map_to_list.
Qed.

Theorem overlap_traffic_bounded sec st l : Forall (oallowed p Gs) l ->
  oeffective_steps cfgs (onet_init cfgs p sec st) l <=
  length Gs * sumf (λ uc : string * gconf P, 1 + (1 + T) * length (gc_neighbours uc.2)) (map_to_list cfgs).
Proof using All. intros Hl. destruct (run_OI _ _ _ _ l (OI_init sec st) Hl) as (f & hd & HI & _). by apply OI_bound in HI. Qed.

Theorem overlap_traffic_bound (Hnb : forall u c, cfgs !! u = Some c -> NoDup (gc_neighbours c)) sec st l : Forall (oallowed p Gs) l ->
  oeffective_steps cfgs (onet_init cfgs p sec st) l <= length Gs * statement_traffic (size cfgs) T.
Proof using All. intros Hl. rewrite <- (total_count cfgs T HN Hnb). by apply overlap_traffic_bounded. Qed.

(** ** When nothing is on its way *)
Lemma quiet_owed (c : gconf P) d (z : gpool) : p_threads z = [] -> p_tasks z = [] -> owed c d z -> du_done d (p_st z).
Proof using. intros E1 E2 [H|[(q & Hq & _)|(t & Ht & _)]]; [done|rewrite E1 in Hq; by apply elem_of_nil in Hq|rewrite E2 in Ht; by apply elem_of_nil in Ht]. Qed.

Section quiet.
Context (E : nat) (fires : string -> nat) (hd : list (string * gobj)) (N : onet) (HI : OI E fires hd N) (HQ : oquiescent N).

Lemma quiet_due u c (y : gpool) d : cfgs !! u = Some c -> on_nodes N !! u = Some y -> due T p Gs c d -> du_when d (p_st y) -> du_done d (p_st y).
Proof using HI HQ.
  intros Hu Hy Hd Hw. destruct (proj2 HQ u y Hy). apply (quiet_owed c); auto.
  by apply (pg_duties _ _ _ _ _ _ _ _ _ _ _ _ _ (oi_node _ _ _ _ HI u c y Hu Hy)).
Qed.

Lemma quiet_arrived u (y : gpool) q d (z : gpool) : on_nodes N !! u = Some y -> q ∈ posts (t_trace (p_st y)) ->
  cfgs !! po_to q = Some d -> on_nodes N !! po_to q = Some z -> arrived d z q.
Proof using HI HQ.
  intros Hy Hq Hd Hz. destruct (oi_sent _ _ _ _ HI u y q Hy Hq) as [Hin|Ha]; [|by apply Ha]. rewrite (proj1 HQ) in Hin. by apply elem_of_nil in Hin.
Qed.

Lemma in_posts v ep m l : ToGossiper v ep m ∈ l -> mkpost v ep m ∈ posts l.
Proof using. intros H. apply elem_of_list_omap. by exists (ToGossiper v ep m). Qed.

Lemma oq_heads u c (y : gpool) g v d (z : gpool) : cfgs !! u = Some c -> on_nodes N !! u = Some y -> g ∈ Gs -> holds (p_st y) g ->
  cfgs !! v = Some d -> on_nodes N !! v = Some z -> holds (p_st z) g.
Proof using HI HQ HN.
  intros Hu Hy Hg Hh Hv Hz. destruct (decide (u = v)) as [->|Hn]; [pose proof (eq_trans (eq_sym Hy) Hz) as Ez; by injection Ez as <-|].
  assert (v ∈ gc_neighbours c) as Hnv by (apply (hn_connected _ _ HN u c Hu); eauto).
  pose proof (quiet_due u c y (d_send g v) Hu Hy (due_send _ _ _ _ g v Hg Hnv) Hh) as Hs. cbn [d_send du_done] in Hs. apply in_posts in Hs.
  pose proof (quiet_arrived u y _ d z Hy Hs Hv Hz) as Ha. destruct (proj2 HQ v z Hz).
  apply (quiet_owed d (d_head g)); auto. by apply (Ha g Hg).
Qed.

Lemma oq_frags u c (y : gpool) g v d (z : gpool) o : cfgs !! u = Some c -> on_nodes N !! u = Some y -> g ∈ Gs -> o ∈ bucket (p_st y) g ->
  cfgs !! v = Some d -> on_nodes N !! v = Some z -> o ∈ bucket (p_st z) g \/ T <= length (bucket (p_st z) g).
Proof using HI HQ HN.
  intros Hu Hy Hg Ho Hv Hz. destruct (decide (u = v)) as [->|Hn]; [pose proof (eq_trans (eq_sym Hy) Hz) as Ez; injection Ez as <-; by left|].
  assert (v ∈ gc_neighbours c) as Hnv by (apply (hn_connected _ _ HN u c Hu); eauto).
  pose proof (quiet_due u c y (d_relay p g o v) Hu Hy (due_relay _ _ _ _ g o v Hg Hnv) Ho) as Hs. cbn [d_relay du_done] in Hs. apply in_posts in Hs.
  pose proof (quiet_arrived u y _ d z Hy Hs Hv Hz) as Ha. destruct (proj2 HQ v z Hz).
  destruct (j_frag _ _ _ _ _ (pg_inv _ _ _ _ _ _ _ _ _ _ _ _ _ (oi_node _ _ _ _ HI u c y Hu Hy)) g o Hg Ho) as (w & e & Hw & ->).
  apply (quiet_owed d (d_got g (the_frag e g))); auto. by apply (proj2 (Ha g Hg) w).
Qed.

(** Every gossiper whose bucket is not full holds all fragments of those
    who signed. *)
Lemma some_full u c (y : gpool) g : cfgs !! u = Some c -> on_nodes N !! u = Some y -> g ∈ Gs -> holds (p_st y) g ->
  exists v d (z : gpool), cfgs !! v = Some d /\ on_nodes N !! v = Some z /\ T <= length (bucket (p_st z) g).
Proof using All.
  intros Hu Hy Hg Hh. 
  destruct (decide (T <= length (bucket (p_st y) g))) as [Hl|Hl]; [eauto 10|].
  destruct (decide (map_Forall (λ v (z : gpool), ~ T <= length (bucket (p_st z) g)) (on_nodes N))) as [Hm|Hm].
  2: { apply map_not_Forall in Hm as (v & z & Hz & Ht); [|apply _]. destruct (proj1 (oi_dom _ _ _ _ HI v)) as [d Hd]; [by eexists|].
       exists v, d, z. split_and!; auto. by apply dec_stable. }
  exfalso. assert (size cfgs <= length (bucket (p_st y) g)) as Hsz; [|pose proof (hn_enough _ _ HN); lia].
  transitivity (length (map (λ uc : string * gconf P, the_frag uc.2 g) (map_to_list cfgs))); [by rewrite map_length|].
  apply nodup_subset_length; [by apply (all_frags cfgs T p Gs HN HG Hdeser)|]. intros o Ho. apply elem_of_list_fmap in Ho as ([w d] & -> & Hin).
  apply elem_of_map_to_list in Hin. cbn [snd]. destruct (proj2 (oi_dom _ _ _ _ HI w)) as [x Hx]; [by eexists|].
  pose proof (oq_heads u c y g w d x Hu Hy Hg Hh Hin Hx) as Hhx.
  destruct (quiet_due w d x (d_own T p d g) Hin Hx) as [Hown|Hown]; [by apply due_own|done| |by apply (Hm w x) in Hown].
  destruct (oq_frags w d x g u c y _ Hin Hx Hg Hown Hu Hy) as [?|?]; done.
Qed.

(** Without repetitions in buckets, everybody has enough fragments. *)
Lemma all_full u c (y : gpool) g v d (z : gpool) : (forall w (x : gpool), on_nodes N !! w = Some x -> NoDup (bucket (p_st x) g)) ->
  cfgs !! u = Some c -> on_nodes N !! u = Some y -> g ∈ Gs -> holds (p_st y) g ->
  cfgs !! v = Some d -> on_nodes N !! v = Some z -> T <= length (bucket (p_st z) g).
Proof using All.
  intros Hnd Hu Hy Hg Hh Hv Hz. destruct (decide (T <= length (bucket (p_st z) g))) as [|Hl]; [done|exfalso].
  assert (forall w x e o, cfgs !! w = Some e -> on_nodes N !! w = Some x -> o ∈ bucket (p_st x) g -> o ∈ bucket (p_st z) g) as Hcome.
  { intros w x e o He Hx Ho. by destruct (oq_frags w e x g v d z o He Hx Hg Ho Hv Hz). }
  assert (size cfgs <= length (bucket (p_st z) g)) as Hsz; [|pose proof (hn_enough _ _ HN); lia].
  transitivity (length (map (λ uc : string * gconf P, the_frag uc.2 g) (map_to_list cfgs))); [by rewrite map_length|].
  apply nodup_subset_length; [by apply (all_frags cfgs T p Gs HN HG Hdeser)|]. intros o Ho. apply elem_of_list_fmap in Ho as ([w e] & -> & Hin).
  apply elem_of_map_to_list in Hin. cbn [snd]. destruct (proj2 (oi_dom _ _ _ _ HI w)) as [x Hx]; [by eexists|].
  pose proof (oq_heads u c y g w e x Hu Hy Hg Hh Hin Hx) as Hhx.
  destruct (quiet_due w e x (d_own T p e g) Hin Hx) as [Hown|Hown]; [by apply due_own|done|by eapply Hcome|].
  exfalso. apply Hl. etransitivity; [exact Hown|]. apply nodup_subset_length; [by apply (Hnd w)|]. intros o Ho. by eapply Hcome.
Qed.

Lemma full_there v d (z : gpool) g : cfgs !! v = Some d -> on_nodes N !! v = Some z -> g ∈ Gs -> T <= length (bucket (p_st z) g) ->
  exists full, full_table (p_st z) g !! mkgid p (full_name g) (g_p0 g) = Some full /\ verify (gc_crypto d) full = Accept /\
    g_p1 full = g_p1 g /\ g_p2 full = g_p2 g /\ ToMonitor (gc_owner d) full ∈ t_trace (p_st z) /\
    length (g_signers full) = T /\ (forall w, w ∈ g_signers full -> is_Some (cfgs !! w)).
Proof using HI HQ.
  intros Hv Hz Hg Hl. pose proof (oi_node _ _ _ _ HI v d z Hv Hz) as Hp.
  destruct (quiet_due v d z (d_full T p g) Hv Hz (due_full _ _ _ _ g Hg) Hl) as [x Hx].
  pose proof (quiet_due v d z (d_fmon p d g x) Hv Hz (due_fmon _ _ _ _ g x Hg) Hx) as Hm. cbn [d_fmon du_done] in Hm.
  destruct (j_full _ _ _ _ _ (pg_inv _ _ _ _ _ _ _ _ _ _ _ _ _ Hp) g x Hg Hx) as (E1 & E2 & E3 & E4).
  destruct (proj1 (pg_ok _ _ _ _ _ _ _ _ _ _ _ _ _ Hp)) as (H1 & _). pose proof (proj1 (H1 _ _ _ Hx)) as Hvf.
  exists x. split_and!; auto. unfold fulls, full_id, fm in Hx. unfold full_table, full_name. by destruct (decide _).
Qed.
End quiet.

(** ** The theorems *)
Theorem overlap_stored sec st l : Forall (oallowed p Gs) l -> oquiescent (onet_run cfgs (onet_init cfgs p sec st) l) ->
  forall u g, OHand u g ∈ l -> is_Some (cfgs !! u) ->
  forall v c, cfgs !! v = Some c -> exists y : gpool, on_nodes (onet_run cfgs (onet_init cfgs p sec st) l) !! v = Some y /\
    statement_table (p_st y) g !! get_id g = Some g /\ ToMonitor (gc_owner c) g ∈ t_trace (p_st y).
Proof using All.
  intros Hl HQ u g Hin [d Hu] v c Hv. destruct (run_OI _ _ _ _ l (OI_init sec st) Hl) as (f & hd & HI & _ & Hh).
  set (N := onet_run _ _ _) in *. destruct (proj2 (oi_dom _ _ _ _ HI v)) as [z Hz]; [by eexists|].
  destruct (proj2 (oi_dom _ _ _ _ HI u)) as [y Hy]; [by eexists|].
  destruct (oi_hand _ _ _ _ HI u g d y (Hh u g Hin) Hu Hy) as [Hg Ho]. destruct (proj2 HQ u y Hy) as [Q1 Q2].
  apply (quiet_owed d (d_head g) y Q1 Q2) in Ho. cbn [d_head du_done] in Ho.
  pose proof (oq_heads _ _ _ N HI HQ u d y g v c z Hu Hy Hg Ho Hv Hz) as Hhz. exists z. split_and!; [done| |].
  - unfold holds, fm in Hhz. unfold statement_table. by destruct (decide _).
  - by apply (quiet_due _ _ _ N HI HQ v c z (d_mon c g) Hv Hz (due_mon _ _ _ _ g Hg)).
Qed.

Lemma handed_held sec st l u g : Forall (oallowed p Gs) l -> oquiescent (onet_run cfgs (onet_init cfgs p sec st) l) ->
  OHand u g ∈ l -> is_Some (cfgs !! u) -> exists E f hd d (y : gpool), OI E f hd (onet_run cfgs (onet_init cfgs p sec st) l) /\ cfgs !! u = Some d /\
    on_nodes (onet_run cfgs (onet_init cfgs p sec st) l) !! u = Some y /\ g ∈ Gs /\ holds (p_st y) g.
Proof using All.
  intros Hl HQ Hin [d Hu]. destruct (run_OI _ _ _ _ l (OI_init sec st) Hl) as (f & hd & HI & _ & Hh).
  set (N := onet_run _ _ _) in *. destruct (proj2 (oi_dom _ _ _ _ HI u)) as [y Hy]; [by eexists|].
  destruct (oi_hand _ _ _ _ HI u g d y (Hh u g Hin) Hu Hy) as [Hg Ho]. destruct (proj2 HQ u y Hy) as [Q1 Q2].
  apply (quiet_owed d (d_head g) y Q1 Q2) in Ho. cbn [d_head du_done] in Ho. eauto 12.
Qed.

Theorem overlap_some_full sec st l : Forall (oallowed p Gs) l -> oquiescent (onet_run cfgs (onet_init cfgs p sec st) l) ->
  forall u g, OHand u g ∈ l -> is_Some (cfgs !! u) ->
  exists v c (y : gpool) full, cfgs !! v = Some c /\ on_nodes (onet_run cfgs (onet_init cfgs p sec st) l) !! v = Some y /\
    full_table (p_st y) g !! mkgid p (full_name g) (g_p0 g) = Some full /\ verify (gc_crypto c) full = Accept /\
    g_p1 full = g_p1 g /\ g_p2 full = g_p2 g /\ ToMonitor (gc_owner c) full ∈ t_trace (p_st y).
Proof using All.
  intros Hl HQ u g Hin Hu. destruct (handed_held sec st l u g Hl HQ Hin Hu) as (E & f & hd & d & y & HI & Hd & Hy & Hg & Hh).
  destruct (some_full _ _ _ _ HI HQ u d y g Hd Hy Hg Hh) as (v & c & z & Hv & Hz & Hlen).
  destruct (full_there _ _ _ _ HI HQ v c z g Hv Hz Hg Hlen) as (full & H1 & H2 & H3 & H4 & H5 & _). exists v, c, z, full. split_and!; auto.
Qed.

Lemma held_bucket s g : fragments_held p s g = bucket s g.
Proof using. unfold fragments_held, NetworkNode.bucket, get_object_list, frags_at, frag_id, fm. by destruct (decide _). Qed.

Theorem overlap_all_full sec st l : Forall (oallowed p Gs) l -> oquiescent (onet_run cfgs (onet_init cfgs p sec st) l) ->
  forall u g, OHand u g ∈ l -> is_Some (cfgs !! u) ->
  (forall w (x : gpool), on_nodes (onet_run cfgs (onet_init cfgs p sec st) l) !! w = Some x -> NoDup (fragments_held p (p_st x) g)) ->
  forall v c, cfgs !! v = Some c -> exists (y : gpool) full, on_nodes (onet_run cfgs (onet_init cfgs p sec st) l) !! v = Some y /\
    full_table (p_st y) g !! mkgid p (full_name g) (g_p0 g) = Some full /\ verify (gc_crypto c) full = Accept /\
    g_p1 full = g_p1 g /\ g_p2 full = g_p2 g /\ ToMonitor (gc_owner c) full ∈ t_trace (p_st y).
Proof using All.
  intros Hl HQ u g Hin Hu Hnd v c Hv. destruct (handed_held sec st l u g Hl HQ Hin Hu) as (E & f & hd & d & y & HI & Hd & Hy & Hg & Hh).
  destruct (proj2 (oi_dom _ _ _ _ HI v)) as [z Hz]; [by eexists|].
  assert (T <= length (bucket (p_st z) g)) as Hlen.
  { eapply (all_full _ _ _ _ HI HQ u d y g v c z); auto. intros w x Hx. rewrite <- held_bucket. by eapply Hnd. }
  destruct (full_there _ _ _ _ HI HQ v c z g Hv Hz Hg Hlen) as (full & H1 & H2 & H3 & H4 & H5 & _). exists z, full. split_and!; auto.
Qed.

(** Nothing goes wrong, however handlers overlap. *)
Theorem overlap_unharmed sec st l : Forall (oallowed p Gs) l ->
  forall v (y : gpool), on_nodes (onet_run cfgs (onet_init cfgs p sec st) l) !! v = Some y ->
  p_crashes y = [] /\ t_black (p_st y) = ∅.
Proof using All.
  intros Hl v y Hy. destruct (run_OI _ _ _ _ l (OI_init sec st) Hl) as (f & hd & HI & _).
  destruct (proj1 (oi_dom _ _ _ _ HI v)) as [c Hc]; [by eexists|].
  pose proof (oi_node _ _ _ _ HI v c y Hc Hy) as Hp. split; [apply (pg_crashes _ _ _ _ _ _ _ _ _ _ _ _ _ Hp)|].
  apply (j_black _ _ _ _ _ (pg_inv _ _ _ _ _ _ _ _ _ _ _ _ _ Hp)).
Qed.

(** ** It comes to rest *)
Lemma run_thread (q : gprog unit) : forall E f hd N u c (y : gpool) l1 l2, OI E f hd N -> cfgs !! u = Some c -> on_nodes N !! u = Some y ->
  p_threads y = (l1 ++ q :: l2)%list -> exists l f' hd' (y' : gpool), Forall (oallowed p Gs) l /\ OI E f' hd' (onet_run cfgs N l) /\
    on_nodes (onet_run cfgs N l) !! u = Some y' /\ p_threads y' = (l1 ++ l2)%list /\
    (forall v, v <> u -> on_nodes (onet_run cfgs N l) !! v = on_nodes N !! v).
Proof using All.
  induction q as [a|x|X f k IH|t k IH]; intros E fi hd N u c y l1 l2 HI Hu Hy Hth;
    (destruct (one_step E fi hd N (ORun u (length l1)) HI I) as [f1 H1]; unfold gain in H1; rewrite decide_False, Nat.add_0_r in H1 by tauto; cbn [hand_of app] in H1;
     assert (on_nodes (onet_step cfgs N (ORun u (length l1))) !! u = Some (thread_step (length l1) y) /\
      (forall v, v <> u -> on_nodes (onet_step cfgs N (ORun u (length l1))) !! v = on_nodes N !! v)) as [E1 E2];
     [cbn [onet_step]; rewrite (oact_eq _ _ c y) by done; cbn [on_nodes]; rewrite lookup_insert; split; [done|]; intros v Hv; by rewrite lookup_insert_ne|];
     assert (p_threads y !! length l1 = Some _) as El by (rewrite Hth; by apply list_lookup_middle)).
  - exists [ORun u (length l1)], f1, hd, (thread_step (length l1) y). split; [by repeat constructor|]. split; [exact H1|]. split; [exact E1|]. split; [|exact E2].
    unfold thread_step. rewrite El. cbn [p_threads]. by rewrite Hth, delete_mid.
  - exists [ORun u (length l1)], f1, hd, (thread_step (length l1) y). split; [by repeat constructor|]. split; [exact H1|]. split; [exact E1|]. split; [|exact E2].
    unfold thread_step. rewrite El. cbn [p_threads]. by rewrite Hth, delete_mid.
  - destruct (f (p_st y)) as [s' x] eqn:Ef.
    assert (p_threads (thread_step (length l1) y) = (l1 ++ k x :: l2)%list) as Hth'.
    { unfold thread_step. rewrite El, Ef. cbn [p_threads]. by rewrite Hth, insert_mid. }
    destruct (IH x E f1 hd _ u c _ l1 l2 H1 Hu E1 Hth') as (l & f' & hd' & y' & B1 & B2 & B3 & B4 & B5).
    exists (ORun u (length l1) :: l), f', hd', y'. split; [by constructor|]. split; [exact B2|]. split; [exact B3|]. split; [done|].
    intros v Hv. etransitivity; [by apply B5|by apply E2].
  - assert (p_threads (thread_step (length l1) y) = (l1 ++ k :: l2)%list) as Hth'.
    { unfold thread_step. rewrite El. cbn [p_threads]. by rewrite Hth, insert_mid. }
    destruct (IH E f1 hd _ u c _ l1 l2 H1 Hu E1 Hth') as (l & f' & hd' & y' & B1 & B2 & B3 & B4 & B5).
    exists (ORun u (length l1) :: l), f', hd', y'. split; [by constructor|]. split; [exact B2|]. split; [exact B3|]. split; [done|].
    intros v Hv. etransitivity; [by apply B5|by apply E2].
Qed.

Definition threads_at (N : onet) (u : string) : nat := from_option (λ y : gpool, length (p_threads y)) 0 (on_nodes N !! u).

Lemma run_all E f hd N : OI E f hd N -> exists l f' hd', Forall (oallowed p Gs) l /\ OI E f' hd' (onet_run cfgs N l) /\
  forall u (y : gpool), on_nodes (onet_run cfgs N l) !! u = Some y -> p_threads y = [].
Proof using All.
  remember (sumf (threads_at N) urls) as n eqn:En. revert f hd N En. induction n as [n IH] using lt_wf_ind. intros f hd N -> HI.
  destruct (decide (map_Forall (λ _ (y : gpool), length (p_threads y) = 0) (on_nodes N))) as [Hm|Hm].
  { exists [], f, hd. split; [constructor|]. split; [exact HI|]. intros u y Hy. by apply nil_length_inv, (Hm u y). }
  apply map_not_Forall in Hm as (u & y & Hy & Ht); [|apply _]. destruct (p_threads y) as [|q l2] eqn:Hth; [done|].
  destruct (proj1 (oi_dom _ _ _ _ HI u)) as [c Hu]; [by eexists|].
  destruct (run_thread q E f hd N u c y [] l2 HI Hu Hy Hth) as (l & f' & hd' & y' & B1 & B2 & B3 & B4 & B5).
  assert (sumf (threads_at (onet_run cfgs N l)) urls < sumf (threads_at N) urls) as Hlt.
  { pose proof (sumf_update (threads_at (onet_run cfgs N l)) (threads_at N) urls u) as Hs. feed specialize Hs.
    - apply NoDup_fst_map_to_list.
    - apply urls_in. eauto.
    - intros v _ Hv. unfold threads_at. by rewrite B5.
    - unfold threads_at in Hs at 2 4. rewrite B3, Hy in Hs. cbn [from_option] in Hs. rewrite B4, Hth in Hs. cbn [app length] in Hs. lia. }
  destruct (IH _ Hlt f' hd' _ eq_refl B2) as (l' & f'' & hd'' & C1 & C2 & C3).
  exists (l ++ l')%list, f'', hd''. unfold onet_run in *. rewrite fold_left_app. split_and!; auto. by apply Forall_app.
Qed.

Theorem overlap_quiescence_reached sec st l : Forall (oallowed p Gs) l -> exists l', Forall (oallowed p Gs) l' /\
  oquiescent (onet_run cfgs (onet_init cfgs p sec st) (l ++ l')).
Proof using All.
  intros Hl. destruct (run_OI _ _ _ _ l (OI_init sec st) Hl) as (f & hd & HI & _). unfold onet_run in *. setoid_rewrite fold_left_app.
  set (N := fold_left _ l _) in *. clearbody N. remember (0 + oeffective_steps cfgs (onet_init cfgs p sec st) l) as E eqn:EE. clear EE Hl.
  set (M := length Gs * sumf (λ uc : string * gconf P, 1 + (1 + T) * length (gc_neighbours uc.2)) (map_to_list cfgs)) in *.
  remember (M - E) as n eqn:En. revert E f hd N HI En. induction n as [n IH] using lt_wf_ind. intros E f hd N HI ->.
  destruct (run_all E f hd N HI) as (l1 & f1 & hd1 & A1 & A2 & A3). unfold onet_run in *. set (N1 := fold_left _ l1 N) in *.
  assert (forall e, oallowed p Gs e -> oeffective N1 e -> exists l', Forall (oallowed p Gs) l' /\ oquiescent (fold_left (onet_step cfgs) l' N)) as Hgo.
  { intros e He Hef. destruct (one_step _ _ _ _ e A2 He) as [f2 H2]. unfold gain in H2. rewrite decide_True in H2 by done.
    pose proof (OI_bound _ _ _ _ H2) as Hb. destruct (IH (M - (E + 1))) with (E := E + 1) (f := f2) (hd := (hand_of e ++ hd1)%list) (N := onet_step cfgs N1 e) as (l' & Hl' & HQ); auto; [unfold M; lia|].
    exists (l1 ++ e :: l')%list. split; [apply Forall_app; split; [done|by constructor]|]. rewrite fold_left_app. exact HQ. }
  destruct (on_flight N1) as [|q fl] eqn:Hf.
  2: { apply (Hgo (ODeliver 0)); [done|]. cbn. rewrite Hf. cbn. lia. }
  destruct (decide (map_Forall (λ _ (y : gpool), length (p_tasks y) = 0) (on_nodes N1))) as [Hm|Hm].
  - exists l1. split; [done|]. split; [done|]. intros u y Hy. split; [by eapply A3|]. by apply nil_length_inv, (Hm u y).
  - apply map_not_Forall in Hm as (u & y & Hy & Ht); [|apply _]. apply (Hgo (OStart u 0)); [done|]. exists y. split; [done|].
    destruct (p_tasks y); [done|]. cbn. lia.
Qed.
End net.
