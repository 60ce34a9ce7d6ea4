(** What a monitor publishes, queries and accuses. *)
From Verif Require Import Bytes Hex Json JsonFacts Types Crypto Verify Bitset Revocation Clock Monitor SpecMonitor MonitorFacts.
Open Scope string_scope.

Lemma elem_of_snd_list (m : gmap gid gobj) g : g ∈ map snd (map_to_list m) <-> exists i, m !! i = Some g.
Proof.
  rewrite elem_of_list_fmap. split.
  - intros ([i x] & -> & H%elem_of_map_to_list). eauto.
  - intros [i H]. exists (i, g). split; [done|]. by apply elem_of_map_to_list.
Qed.

Lemma ids_of_table (m : gmap gid gobj) tys : filed m tys ->
  map get_id (map snd (map_to_list m)) = map fst (map_to_list m).
Proof.
  intros F. rewrite map_map. apply map_ext_in. intros [i g] H%elem_of_list_In.
  apply elem_of_map_to_list in H. cbn. by apply F in H as [-> _].
Qed.

Section facts.
Context {P : prims} (z : gzip) (c : mconf (P:=P)).
Implicit Types (s : mst) (g : gobj) (l : list mevent) (o : list mout).
Notation mstep := (mstep z c).
Notation mrun := (mrun z c).
Notation store := (store z).

(** The update of an uninterrupted end of period. *)
Definition update_of s m : update := generate_update c (wipe m (clean s)) m.

Lemma in_sths s m g : g ∈ u_sths (update_of s m) <->
  exists i, m_sth s !! i = Some g /\ i_period i = pad2 m /\ m_con s !! con_key (i_entity i) = None.
Proof.
  unfold update_of. cbn [u_sths generate_update]. rewrite elem_of_snd_list. unfold wipe, clean. cbn.
  split; intros [i H]; exists i; rewrite !map_filter_lookup_Some in *; unfold of_period, unconvicted in *; cbn in *; tauto.
Qed.
Lemma in_revs s m g : g ∈ u_revs (update_of s m) <->
  exists i, m_rev s !! i = Some g /\ i_period i = pad2 m /\ m_con s !! con_key (i_entity i) = None.
Proof.
  unfold update_of. cbn [u_revs generate_update]. rewrite elem_of_snd_list. unfold wipe, clean. cbn.
  split; intros [i H]; exists i; rewrite !map_filter_lookup_Some in *; unfold of_period, unconvicted in *; cbn in *; tauto.
Qed.
Lemma in_cons s m g : g ∈ u_cons (update_of s m) <-> exists i, m_con_d s !! i = Some g /\ i_period i = pad2 m.
Proof.
  unfold update_of. cbn [u_cons generate_update]. rewrite elem_of_snd_list. unfold wipe, clean. cbn.
  split; intros [i H]; exists i; rewrite !map_filter_lookup_Some in *; unfold of_period in *; cbn in *; tauto.
Qed.
Lemma in_accs s m g : g ∈ u_accs (update_of s m) <-> exists i, m_acc_d s !! i = Some g /\ i_period i = pad2 m.
Proof.
  unfold update_of. cbn [u_accs generate_update]. rewrite elem_of_snd_list. unfold wipe, clean. cbn.
  split; intros [i H]; exists i; rewrite !map_filter_lookup_Some in *; unfold of_period in *; cbn in *; tauto.
Qed.

Lemma update_sound l s m g : reached z c l s -> g ∈ contents (update_of s m) ->
  listed (update_of s m) g /\ g_period g = pad2 m /\ received l g.
Proof.
  intros R H. pose proof (reached_filed _ _ _ _ R) as (F1&F2&F3&F4&F5&F6&F7).
  unfold contents in H. rewrite !elem_of_app in H. unfold listed.
  destruct H as [H|[H|[H|H]]]; pose proof H as W.
  - apply in_sths in W as (i & W & E & _). destruct (F6 _ _ W) as [-> T%elem_of_list_singleton].
    split; [auto|]. split; [done|]. eapply held_received; [done|]. exists (get_id g). tauto.
  - apply in_revs in W as (i & W & E & _). destruct (F7 _ _ W) as [-> T%elem_of_list_singleton].
    split; [auto|]. split; [done|]. eapply held_received; [done|]. exists (get_id g). tauto.
  - apply in_cons in W as (i & W & E). destruct (F4 _ _ W) as [-> T%elem_of_list_singleton].
    split; [auto|]. split; [done|]. eapply held_received; [done|]. exists (get_id g). tauto.
  - apply in_accs in W as (i & W & E). destruct (F5 _ _ W) as [-> T%elem_of_list_singleton].
    split; [tauto|]. split; [done|]. eapply held_received; [done|]. exists (get_id g). tauto.
Qed.

Lemma generate_ids s m : all_filed s -> map get_id (contents (generate_update c s m)) =
  (map fst (map_to_list (m_sth s)) ++ map fst (map_to_list (m_rev s)) ++
   map fst (map_to_list (m_con_d s)) ++ map fst (map_to_list (m_acc_d s)))%list.
Proof.
  intros (F1&F2&F3&F4&F5&F6&F7). unfold contents, generate_update. cbn [u_sths u_revs u_cons u_accs].
  rewrite !map_app. by erewrite !ids_of_table by eassumption.
Qed.

Lemma fst_type (m : gmap gid gobj) t i : filed m [t] -> i ∈ map fst (map_to_list m) -> i_type i = t.
Proof.
  intros F ([j g] & -> & H%elem_of_map_to_list)%elem_of_list_fmap. cbn.
  by apply F in H as [-> H%elem_of_list_singleton].
Qed.

Lemma generate_once s m : all_filed s -> NoDup (map get_id (contents (generate_update c s m))).
Proof.
  intros F. rewrite (generate_ids _ _ F). destruct F as (F1&F2&F3&F4&F5&F6&F7).
  assert (forall m : gmap gid gobj, NoDup (map fst (map_to_list m))) as D by (intros; apply NoDup_fst_map_to_list).
  assert (forall i (m1 m2 : gmap gid gobj) t1 t2, filed m1 [t1] -> filed m2 [t2] -> t1 <> t2 ->
    i ∈ map fst (map_to_list m1) -> i ∉ map fst (map_to_list m2)) as X.
  { intros i m1 m2 t1 t2 G1 G2 N H1 H2. apply (fst_type _ _ _ G1) in H1. apply (fst_type _ _ _ G2) in H2. congruence. }
  rewrite !NoDup_app. setoid_rewrite not_elem_of_app. setoid_rewrite not_elem_of_app. split_and!; try apply D; intros i H; try split; try split;
    match goal with
    | G1 : filed ?m1 [?t1], G2 : filed ?m2 [?t2], H : i ∈ map fst (map_to_list ?m1) |- i ∉ map fst (map_to_list ?m2) =>
        exact (X i m1 m2 t1 t2 G1 G2 ltac:(done) H)
    end.
Qed.

Lemma update_once l s m : reached z c l s -> NoDup (map get_id (contents (update_of s m))).
Proof.
  intros R. apply generate_once. pose proof (reached_filed _ _ _ _ R) as F.
  destruct F as (F1&F2&F3&F4&F5&F6&F7). unfold all_filed, wipe, clean. cbn.
  split_and!; try done; repeat apply filed_filter; try done; intros i x H; by rewrite lookup_empty in H.
Qed.

Lemma written_app s l1 l2 s1 o1 : mrun s l1 = Some (s1, o1) ->
  written z c s (l1 ++ l2) = (written z c s l1 ++ written z c s1 l2)%list.
Proof.
  revert s o1. induction l1 as [|e r IH]; intros s o1; cbn; [by intros [= <- <-]|].
  destruct (mstep s e) as [[s2 o2]|]; [|done].
  destruct (mrun s2 r) as [[s3 o3]|] eqn:R; [|done]. intros [= <- <-].
  rewrite (IH _ _ R). by rewrite app_assoc.
Qed.

Lemma period_end_writes l s m : reached z c l s -> exists s',
  reached z c (l ++ period_end m) s' /\
  written z c monitor_init (l ++ period_end m) = (written z c monitor_init l ++ [update_of s m])%list /\
  m_files s' !! ("Period_" ++ itoa (Z.of_nat m - mc_offset c)) = Some (update_marshal (update_of s m)).
Proof.
  intros [o R]. exists (publish c (wipe m (clean s)) m). split; [|split].
  - exists (o ++ [])%list. unfold period_end. rewrite mrun_app, R. done.
  - rewrite (written_app _ _ _ _ _ R). done.
  - unfold publish. cbn. by rewrite lookup_insert.
Qed.

(** ** Completeness *)

Lemma zero_con_free l s e : reached z c l s -> no_zero_con e l -> m_con s !! con_key e = None.
Proof.
  intros R N. destruct (m_con s !! con_key e) as [x|] eqn:E; [|done]. exfalso.
  pose proof (reached_filed _ _ _ _ R) as (F1&F2&F3&F4&F5&F6&F7). destruct (F2 _ _ E) as [I T%elem_of_list_singleton].
  apply (N x); [|done| |].
  - eapply held_received; [done|]. exists (con_key e). tauto.
  - by injection I.
  - by injection I.
Qed.

Lemma stays_sth s e s' o g : mstep s e = Some (s', o) -> (forall g', carries e g' -> get_id g' <> get_id g) ->
  (forall m, e = MWipe m -> pad2 m = g_period g) -> m_con s !! con_key (g_p0 g) = None ->
  m_sth s !! get_id g = Some g -> m_sth s' !! get_id g = Some g.
Proof.
  intros H N W C G. apply mstep_case in H as [(E1&E2&E3&E4&E5&E6&E7)|g1 S ->|_ ->|m -> ->].
  - by rewrite E6.
  - rewrite store_sth. case_decide; [|done]. rewrite lookup_insert_ne; [done|]. eapply N, stores_carries, S.
  - unfold clean. cbn. apply map_filter_lookup_Some. done.
  - unfold wipe. cbn. apply map_filter_lookup_Some. split; [done|]. unfold of_period. cbn. symmetry. by apply W.
Qed.
Lemma stays_rev s e s' o g : mstep s e = Some (s', o) -> (forall g', carries e g' -> get_id g' <> get_id g) ->
  (forall m, e = MWipe m -> pad2 m = g_period g) -> m_con s !! con_key (g_p0 g) = None ->
  m_rev s !! get_id g = Some g -> m_rev s' !! get_id g = Some g.
Proof.
  intros H N W C G. apply mstep_case in H as [(E1&E2&E3&E4&E5&E6&E7)|g1 S ->|_ ->|m -> ->].
  - by rewrite E7.
  - rewrite store_rev. case_decide; [|done]. rewrite lookup_insert_ne; [done|]. eapply N, stores_carries, S.
  - unfold clean. cbn. apply map_filter_lookup_Some. done.
  - unfold wipe. cbn. apply map_filter_lookup_Some. split; [done|]. unfold of_period. cbn. symmetry. by apply W.
Qed.
Lemma stays_con s e s' o g : mstep s e = Some (s', o) -> (forall g', carries e g' -> get_id g' <> get_id g) ->
  (forall m, e = MWipe m -> pad2 m = g_period g) ->
  m_con_d s !! get_id g = Some g -> m_con_d s' !! get_id g = Some g.
Proof.
  intros H N W G. apply mstep_case in H as [(E1&E2&E3&E4&E5&E6&E7)|g1 S ->|_ ->|m -> ->].
  - by rewrite E4.
  - rewrite store_con_d. case_decide; [|done]. rewrite lookup_insert_ne; [done|]. eapply N, stores_carries, S.
  - done.
  - unfold wipe. cbn. apply map_filter_lookup_Some. split; [done|]. unfold of_period. cbn. symmetry. by apply W.
Qed.
Lemma stays_acc s e s' o g : mstep s e = Some (s', o) -> (forall g', carries e g' -> get_id g' <> get_id g) ->
  (forall m, e = MWipe m -> pad2 m = g_period g) ->
  m_acc_d s !! get_id g = Some g -> m_acc_d s' !! get_id g = Some g.
Proof.
  intros H N W G. apply mstep_case in H as [(E1&E2&E3&E4&E5&E6&E7)|g1 S ->|_ ->|m -> ->].
  - by rewrite E5.
  - rewrite store_acc_d. case_decide; [|done]. rewrite lookup_insert_ne; [done|]. eapply N, stores_carries, S.
  - done.
  - unfold wipe. cbn. apply map_filter_lookup_Some. split; [done|]. unfold of_period. cbn. symmetry. by apply W.
Qed.

Lemma received_app l1 l2 g : received (l1 ++ l2) g <-> received l1 g \/ received l2 g.
Proof. unfold received. set_solver. Qed.

Lemma reached_app l1 l2 s : reached z c (l1 ++ l2) s ->
  exists s1 o2, reached z c l1 s1 /\ mrun s1 l2 = Some (s, o2).
Proof.
  intros [o R]. rewrite mrun_app in R. destruct (mrun monitor_init l1) as [[s1 o1]|] eqn:R1; [|done].
  destruct (mrun s1 l2) as [[s2 o2]|] eqn:R2; [|done]. injection R as -> <-.
  exists s1, o2. split; [|done]. by exists o1.
Qed.

Lemma stays_run (t : mst -> gmap gid gobj) (Q : mst -> Prop) g l s s' o :
  (forall s e s' o, e ∈ l -> Q s -> mstep s e = Some (s', o) -> Q s' /\ (t s !! get_id g = Some g -> t s' !! get_id g = Some g)) ->
  Q s -> mrun s l = Some (s', o) -> t s !! get_id g = Some g -> t s' !! get_id g = Some g.
Proof.
  intros H Hq R G.
  apply (run_inv z c (λ s, Q s /\ t s !! get_id g = Some g) s l s' o); [|done|done].
  intros s1 e s2 o2 He [Q1 G1] S. destruct (H _ _ _ _ He Q1 S). tauto.
Qed.

(** Without a conflict proof with period "0" the key stays absent. *)
Lemma con_absent_step s e s' o x : all_filed s -> mstep s e = Some (s', o) ->
  (forall g, carries e g -> g_type g = CON_INIT -> g_p0 g = x -> g_period g <> "0") ->
  m_con s !! con_key x = None -> m_con s' !! con_key x = None.
Proof.
  intros F H N G. apply mstep_case in H as [(E1&E2&E3&E4&E5&E6&E7)|g1 S ->|_ ->|m -> ->]; [by rewrite E2| |done|done].
  rewrite store_con. case_decide as D; [|done]. rewrite lookup_insert_ne; [done|].
  intros I. injection I as E T X. apply (N g1); try done. by eapply stores_carries.
Qed.

Lemma gossip_at_home l1 g l2 s : reached z c (l1 ++ MGossip g :: l2) s ->
  exists s0 s1 o2, reached z c l1 s0 /\ reached z c (l1 ++ [MGossip g]) s1 /\ fst (handle_gossip z c s0 g) = s1 /\ mrun s1 l2 = Some (s, o2).
Proof.
  intros R. change (MGossip g :: l2) with ([MGossip g] ++ l2)%list in R. rewrite app_assoc in R.
  destruct (reached_app _ _ _ R) as (s1 & o2 & R1 & R2).
  destruct (reached_app _ _ _ R1) as (s0 & o1 & R0 & H). cbn in H.
  destruct (handle_gossip z c s0 g) as [s1' o'] eqn:E. injection H as -> _. exists s0, s1, o2. rewrite E. done.
Qed.

Lemma statement_published l1 g l2 s m : reached z c (l1 ++ MGossip g :: l2) s ->
  g_type g ∈ [STH_FULL; REV_FULL] -> g_period g = pad2 m -> undisturbed g l2 ->
  no_zero_con (g_p0 g) (l1 ++ MGossip g :: l2) -> listed (update_of s m) g.
Proof.
  intros R T E U N. destruct (gossip_at_home _ _ _ _ R) as (s0 & s1 & o2 & R0 & R1 & H & R2).
  assert (at_home s1 g) as A.
  { eapply (gossip_stored z c s0 g s1 (snd (handle_gossip z c s0 g))); [unfold monitor_type; set_solver|].
    cbn. rewrite <- H. by destruct (handle_gossip z c s0 g). }
  set (Q := λ s : mst, all_filed s /\ m_con s !! con_key (g_p0 g) = None).
  assert (Q s1) as Q1.
  { split; [by eapply reached_filed|]. eapply zero_con_free; [exact R1|].
    intros x X. apply (N x). change (MGossip g :: l2) with ([MGossip g] ++ l2)%list. rewrite app_assoc, received_app. by left. }
  assert (forall s e s' o, e ∈ l2 -> Q s -> mstep s e = Some (s', o) -> Q s') as QS.
  { intros sa e sb o He [Fa Ca] S. split; [by eapply filed_step|]. eapply con_absent_step; [done|exact S| |done].
    intros x X. apply (N x). rewrite received_app. right. exists e. split; [set_solver|done]. }
  assert (m_con s !! con_key (g_p0 g) = None) as Cs by (by eapply zero_con_free).
  unfold listed.
  destruct A as [[T1 A]|[[T1 A]|[[T1 A]|[[T1 A]|[[T1|T1] A]]]]];
    try (exfalso; rewrite T1 in T; set_solver).
  - left. split; [done|]. apply in_sths. exists (get_id g). split_and!; try done.
    apply (stays_run m_sth Q g l2 s1 s o2); try done.
    intros sa e sb o He Qa S. split; [by eapply QS|]. destruct (U e He) as [U1 U2]. eapply stays_sth; try done. apply Qa.
  - right; left. split; [done|]. apply in_revs. exists (get_id g). split_and!; try done.
    apply (stays_run m_rev Q g l2 s1 s o2); try done.
    intros sa e sb o He Qa S. split; [by eapply QS|]. destruct (U e He) as [U1 U2]. eapply stays_rev; try done. apply Qa.
Qed.

Lemma proof_published l1 g l2 s m : reached z c (l1 ++ MGossip g :: l2) s ->
  g_type g ∈ [CON_INIT; ACC_FULL] -> g_period g = pad2 m -> undisturbed g l2 ->
  (forall x, received l1 x -> get_id x <> get_id g) -> listed (update_of s m) g.
Proof.
  intros R T E U N. destruct (gossip_at_home _ _ _ _ R) as (s0 & s1 & o2 & R0 & R1 & H & R2).
  assert (is_duplicate s0 g = false) as D.
  { unfold is_duplicate. apply bool_decide_eq_false. intros W.
    assert (forall i x, held s0 x -> i = get_id x -> i <> get_id g) as X.
    { intros i x Hx ->. apply N. by eapply held_received. }
    pose proof (reached_filed _ _ _ _ R0) as (F1&F2&F3&F4&F5&F6&F7).
    unfold get_object in W. cbn in W.
    apply elem_of_cons in T as [T|T%elem_of_list_singleton].
    - rewrite T in W. cbn in W. destruct (m_con s0 !! get_id g) as [x|] eqn:Y.
      + cbn in W. subst x. eapply (X (get_id g) g); try done. exists (get_id g). tauto.
      + cbn in W. by rewrite <- W in T.
    - rewrite T in W. cbn in W. destruct (m_acc s0 !! get_id g) as [x|] eqn:Y.
      + cbn in W. subst x. eapply (X (get_id g) g); try done. exists (get_id g). tauto.
      + cbn in W. by rewrite <- W in T. }
  assert (s1 = store s0 g) as ->.
  { rewrite <- H. unfold handle_gossip. rewrite D. unfold process_valid, obj_kind.
    apply elem_of_cons in T as [T|T%elem_of_list_singleton]; rewrite T; done. }
  unfold listed. apply elem_of_cons in T as [T|T%elem_of_list_singleton].
  - right; right; left. split; [done|]. apply in_cons. exists (get_id g). split; [|done].
    apply (stays_run m_con_d (λ _, True) g l2 (store s0 g) s o2); try done.
    + intros sa e sb o He _ S. split; [done|]. destruct (U e He) as [U1 U2]. by eapply stays_con.
    + rewrite store_con_d. rewrite decide_True by done. apply lookup_insert.
  - right; right; right. split; [done|]. apply in_accs. exists (get_id g). split; [|done].
    apply (stays_run m_acc_d (λ _, True) g l2 (store s0 g) s o2); try done.
    + intros sa e sb o He _ S. split; [done|]. destruct (U e He) as [U1 U2]. by eapply stays_acc.
    + rewrite store_acc_d. rewrite decide_True by done. apply lookup_insert.
Qed.

(** ** A proof that a wipe has removed is never published again *)

Lemma lost_step s e s' o g : g_type g ∈ [CON_INIT; ACC_FULL] -> all_filed s -> mstep s e = Some (s', o) ->
  (forall x, carries e x -> get_id x = get_id g -> e = MGossip g) ->
  (get_object s (get_id g) = g /\ m_con_d s !! get_id g <> Some g /\ m_acc_d s !! get_id g <> Some g) ->
  (get_object s' (get_id g) = g /\ m_con_d s' !! get_id g <> Some g /\ m_acc_d s' !! get_id g <> Some g).
Proof.
  intros T F H N (G & D1 & D2).
  assert (get_object s' (get_id g) = get_object s (get_id g) <->
          (g_type g = CON_INIT -> default zero_obj (m_con s' !! get_id g) = default zero_obj (m_con s !! get_id g)) /\
          (g_type g = ACC_FULL -> default zero_obj (m_acc s' !! get_id g) = default zero_obj (m_acc s !! get_id g))) as K.
  { unfold get_object. cbn. apply elem_of_cons in T as [T|T%elem_of_list_singleton]; rewrite T; cbn;
      (split; [intros W; split; [by intros|intros ?; done]|intros [W1 W2]; auto]). }
  apply mstep_case in H as [(E1&E2&E3&E4&E5&E6&E7)|g1 S ->|_ ->|m -> ->].
  - rewrite E4, E5. split; [|done]. rewrite <- G at 2. apply K. by rewrite E2, E3.
  - destruct (decide (get_id g1 = get_id g)) as [I|I].
    + pose proof (N g1 (stores_carries _ _ _ _ S) I) as ->. inversion S as [? M Dup|]; subst.
      unfold is_duplicate in Dup. by apply bool_decide_eq_false in Dup.
    + rewrite store_con_d, store_acc_d. split; [|split].
      * rewrite <- G at 2. apply K. rewrite store_con, store_acc. split; intros _; case_decide; try done; by rewrite lookup_insert_ne.
      * case_decide; [by rewrite lookup_insert_ne|done].
      * case_decide; [by rewrite lookup_insert_ne|done].
  - split; [|done]. rewrite <- G at 2. by apply K.
  - unfold wipe. cbn. split_and!.
    + rewrite <- G at 2. by apply K.
    + rewrite map_filter_lookup_Some. tauto.
    + rewrite map_filter_lookup_Some. tauto.
Qed.

Lemma lost_forever s l g : g_type g ∈ [CON_INIT; ACC_FULL] -> all_filed s ->
  (forall e x, e ∈ l -> carries e x -> get_id x = get_id g -> e = MGossip g) ->
  (get_object s (get_id g) = g /\ m_con_d s !! get_id g <> Some g /\ m_acc_d s !! get_id g <> Some g) ->
  forall u, u ∈ written z c s l -> ~ g ∈ contents u.
Proof.
  intros T. revert s. induction l as [|e r IH]; intros s F N G u; cbn; [by intros ?%elem_of_nil|].
  destruct (mstep s e) as [[s1 o1]|] eqn:S; [|by intros ?%elem_of_nil].
  intros [H|H]%elem_of_app.
  - destruct e; try (by apply elem_of_nil in H). apply elem_of_list_singleton in H as ->.
    intros H. destruct F as (F1&F2&F3&F4&F5&F6&F7). destruct G as (_ & G1 & G2).
    unfold contents, generate_update in H. cbn [u_sths u_revs u_cons u_accs] in H.
    rewrite !elem_of_app, !elem_of_snd_list in H.
    destruct H as [[i H]|[[i H]|[[i H]|[i H]]]].
    + apply F6 in H as [_ H%elem_of_list_singleton]. rewrite H in T. set_solver.
    + apply F7 in H as [_ H%elem_of_list_singleton]. rewrite H in T. set_solver.
    + destruct (F4 _ _ H) as [-> _]. done.
    + destruct (F5 _ _ H) as [-> _]. done.
  - revert H. apply IH.
    + by eapply filed_step.
    + intros e' x He'. apply N. set_solver.
    + eapply lost_step; try done. intros x. apply N. set_solver.
Qed.

(** * C44 *)

Lemma has_pom_false s m e : has_pom s m e = false <->
  m_acc s !! mkgid (pad2 m) ACC_FULL e = None /\ m_con s !! mkgid "0" CON_INIT e = None.
Proof.
  unfold has_pom, acc_key, con_key. rewrite orb_false_iff, !bool_decide_eq_false, <- !eq_None_not_Some. done.
Qed.

Lemma asked s m f urls e : asks (query s m f urls) e <->
  e ∈ urls /\ m_acc s !! mkgid (pad2 m) ACC_FULL e = None /\ m_con s !! mkgid "0" CON_INIT e = None.
Proof.
  unfold asks, query. rewrite <- has_pom_false. split.
  - intros [f' H]. apply elem_of_list_In, in_map_iff in H as (e' & [= <- <-] & H).
    apply List.filter_In in H as [H1 H2]. split; [by apply elem_of_list_In|]. by apply negb_true_iff.
  - intros [H1 H2]. exists f. apply elem_of_list_In, in_map_iff. exists e. split; [done|].
    apply List.filter_In. split; [by apply elem_of_list_In|]. by rewrite H2.
Qed.

Lemma accused_timer s m st e f g : MSend g ∈ accuse_timer c s m st e f <->
  g = accusation c m st e /\ m_acc s !! mkgid (pad2 m) ACC_FULL e = None /\ m_con s !! mkgid "0" CON_INIT e = None /\
  m_temp s !! mkgid (pad2 m) (init_type f) e = None.
Proof.
  unfold accuse_timer, accuse. pose proof (has_pom_false s m e) as K. destruct (has_pom s m e).
  - cbn. split; [by intros ?%elem_of_nil|]. intros (_ & H1 & H2 & _). pose proof (proj2 K (conj H1 H2)). done.
  - destruct (proj1 K eq_refl) as [H1 H2]. cbn [negb andb]. destruct (bool_decide _) eqn:B; cbn [negb].
    + split; [by intros ?%elem_of_nil|]. intros (_ & _ & _ & H). apply bool_decide_eq_true in B. rewrite H in B. by destruct B.
    + apply bool_decide_eq_false, eq_None_not_Some in B. rewrite elem_of_list_singleton. split; [intros [= ->]; done|intros (-> & _); done].
Qed.

Lemma query_out s s' o m : (mstep s (MQueryLoggers m) = Some (s', o) -> o = query s m Sth (mc_loggers c)) /\
  (mstep s (MQueryCAs m) = Some (s', o) -> o = query s m Rev (mc_cas c)).
Proof. split; by intros [= <- <-]. Qed.

Lemma not_queried s s' o m e : mstep s (MQueryLoggers m) = Some (s', o) \/ mstep s (MQueryCAs m) = Some (s', o) ->
  is_Some (m_acc s !! mkgid (pad2 m) ACC_FULL e) \/ is_Some (m_con s !! mkgid "0" CON_INIT e) -> ~ asks o e.
Proof.
  intros [H|H] W; apply query_out in H as ->; rewrite asked; intros (_ & H1 & H2); rewrite H1, H2 in W; by destruct W as [[]|[]].
Qed.

Lemma withheld s m e g : is_Some (m_con s !! mkgid "0" CON_INIT e) -> all_filed s ->
  g ∈ u_sths (update_of s m) \/ g ∈ u_revs (update_of s m) -> g_p0 g <> e.
Proof.
  intros [x W] (F1&F2&F3&F4&F5&F6&F7) [H|H] <-.
  - apply in_sths in H as (i & H & _ & N). destruct (F6 _ _ H) as [-> _]. unfold con_key in N. cbn in N. by rewrite W in N.
  - apply in_revs in H as (i & H & _ & N). destruct (F7 _ _ H) as [-> _]. unfold con_key in N. cbn in N. by rewrite W in N.
Qed.

(** Conflict proofs that carry a minute never stop a query or a publication. *)
Lemma still_queried l s m e : reached z c l s -> no_zero_con e l ->
  m_acc s !! mkgid (pad2 m) ACC_FULL e = None ->
  (e ∈ mc_loggers c -> asks (query s m Sth (mc_loggers c)) e) /\ (e ∈ mc_cas c -> asks (query s m Rev (mc_cas c)) e).
Proof. intros R N A. pose proof (zero_con_free _ _ _ R N) as Z. unfold con_key in Z. rewrite !asked. done. Qed.

(** * C45 *)

Lemma fire_out s n m st s' o g : mstep s (MFire n m st) = Some (s', o) -> MSend g ∈ o ->
  exists e f, m_timers s !! n = Some (TAccuse e f) /\ g = accusation c m st e /\
    m_acc s !! mkgid (pad2 m) ACC_FULL e = None /\ m_con s !! mkgid "0" CON_INIT e = None /\
    m_temp s !! mkgid (pad2 m) (init_type f) e = None.
Proof.
  cbn. destruct (m_timers s !! n) as [[ca d|e f]|].
  - intros [= <- <-] H. by apply elem_of_nil in H.
  - intros [= <- <-] H. apply accused_timer in H. exists e, f. by destruct s.
  - intros [= <- <-] H. by apply elem_of_nil in H.
Qed.

Lemma stays_temp s e s' o g : mstep s e = Some (s', o) -> (forall g', carries e g' -> get_id g' <> get_id g) ->
  (forall m, e <> MWipe m) -> m_temp s !! get_id g = Some g -> m_temp s' !! get_id g = Some g.
Proof.
  intros H N W G. apply mstep_case in H as [(E1&E2&E3&E4&E5&E6&E7)|g1 S ->|_ ->|m -> ->].
  - by rewrite E1.
  - rewrite store_temp by (by eapply stores_type). case_decide; [|done]. rewrite lookup_insert_ne; [done|]. eapply N, stores_carries, S.
  - done.
  - by destruct (W m).
Qed.

Lemma statement_in_temp l1 g l2 s : reached z c (l1 ++ MGossip g :: l2) s ->
  g_type g ∈ [STH_INIT; REV_INIT] ->
  (forall e, e ∈ l2 -> (forall g', carries e g' -> get_id g' <> get_id g) /\ forall m, e <> MWipe m) ->
  m_temp s !! get_id g = Some g.
Proof.
  intros R T U. destruct (gossip_at_home _ _ _ _ R) as (s0 & s1 & o2 & R0 & R1 & H & R2).
  assert (at_home s1 g) as A.
  { eapply (gossip_stored z c s0 g s1 (snd (handle_gossip z c s0 g))); [unfold monitor_type; set_solver|].
    cbn. rewrite <- H. by destruct (handle_gossip z c s0 g). }
  assert (m_temp s1 !! get_id g = Some g) as A1.
  { destruct A as [[T1 A]|[[T1 A]|[[T1 A]|[[T1 A]|[_ A]]]]]; try done; exfalso; rewrite T1 in T; set_solver. }
  apply (stays_run m_temp (λ _, True) g l2 s1 s o2); try done.
  intros sa e sb o He _ S. split; [done|]. destruct (U e He). by eapply stays_temp.
Qed.

(** ** Accusations come from bad answers *)

Definition timers_caused (l0 : list mevent) s : Prop :=
  forall e f, TAccuse e f ∈ m_timers s -> exists r, MReply f e r ∈ l0 /\ bad_answer z c f r.

Lemma store_timers s g : exists t, m_timers (store s g) = (m_timers s ++ t)%list /\ forall e f, TAccuse e f ∉ t.
Proof.
  destruct s. unfold Monitor.store. destruct (obj_kind g) as [[[]| |[]]|[]|]; cbn;
    try (exists []; rewrite app_nil_r; split; [done|]; by intros ? ? ?%elem_of_nil).
  eexists. split; [done|]. by intros e f H%elem_of_list_singleton.
Qed.

Lemma process_timers s g s' o : process_valid z c s g = (s', o) ->
  exists t, m_timers s' = (m_timers s ++ t)%list /\ forall e f, TAccuse e f ∉ t.
Proof.
  intros [-> |(-> & _)]%process_cases; [|apply store_timers].
  exists []. rewrite app_nil_r. split; [done|]. by intros ? ? ?%elem_of_nil.
Qed.

Lemma reply_timers s f u r s' o : handle_reply z c s f u r = Some (s', o) ->
  (s' = set_timers s (m_timers s ++ [TAccuse u f])%list /\ o = [] /\ bad_answer z c f r) \/
  (exists g, r = Some g /\ verify (mc_crypto c) g = Accept /\ process_valid z c s g = (s', o)).
Proof.
  unfold handle_reply, wait_then_accuse, bad_answer. destruct r as [g|]; [|intros [= <- <-]; auto].
  destruct (verify (mc_crypto c) g) eqn:V; try done; [|intros [= <- <-]; left; split_and!; eauto].
  destruct f; [intros [= H]; right; eauto| |intros [= H]; right; eauto].
  destruct (check_rev z c s g) eqn:K; try done; [intros [= H]; right; eauto|intros [= <- <-]].
  left. split_and!; try done. right. exists g. split; [done|]. right. split; [done|].
  unfold check_rev in K. destruct (srh_and_dcrv z g) as [srh d] eqn:E. eauto.
Qed.

Lemma process_out s g s' o x : process_valid z c s g = (s', o) -> x ∈ o -> x = MSend g /\
  ((g_type g = STH_INIT /\ g_signer g ∈ mc_all_loggers c) \/ (g_type g = REV_INIT /\ g_signer g ∈ mc_all_cas c)).
Proof.
  unfold process_valid, obj_kind. pose proof (kind_cases (g_type g)) as K.
  assert (forall a r, existsb (String.eqb a) r = true -> a ∈ r) as X.
  { intros a r (b & H1 & ->%String.eqb_eq)%existsb_exists. by apply elem_of_list_In. }
  destruct (kind_of (g_type g)) as [[[]| |[]]|[]|]; intros [= <- <-]; try (by intros ?%elem_of_nil).
  - unfold is_logger. destruct (existsb _ _) eqn:E; [|by intros ?%elem_of_nil]. intros ->%elem_of_list_singleton. auto.
  - unfold is_authority. destruct (existsb _ _) eqn:E; [|by intros ?%elem_of_nil]. intros ->%elem_of_list_singleton. auto.
Qed.

Lemma gossip_quiet s g s' o : handle_gossip z c s g = (s', o) -> o = [] /\
  exists t, m_timers s' = (m_timers s ++ t)%list /\ forall e f, TAccuse e f ∉ t.
Proof.
  unfold handle_gossip, process_valid.
  assert (exists t, m_timers s = (m_timers s ++ t)%list /\ forall e f, TAccuse e f ∉ t) as N.
  { exists []. rewrite app_nil_r. split; [done|]. by intros ? ? ?%elem_of_nil. }
  destruct (is_duplicate s g); [by intros [= <- <-]|].
  destruct (obj_kind g) as [[[]| |[]]|[]|]; intros [= <- <-]; split; try done; apply store_timers.
Qed.

(** What one step sends. *)
Lemma step_sends s e s' o g : mstep s e = Some (s', o) -> MSend g ∈ o ->
  (exists n m st x f, e = MFire n m st /\ m_timers s !! n = Some (TAccuse x f) /\ g = accusation c m st x) \/
  (exists f u, e = MReply f u (Some g) /\ verify (mc_crypto c) g = Accept /\
   ((g_type g = STH_INIT /\ g_signer g ∈ mc_all_loggers c) \/ (g_type g = REV_INIT /\ g_signer g ∈ mc_all_cas c))).
Proof.
  intros H G. destruct e as [x|m|m|f u r|n m st| |m|m].
  - cbn in H. injection H as H. apply gossip_quiet in H as [-> _]. by apply elem_of_nil in G.
  - apply query_out in H as ->. apply elem_of_list_In, in_map_iff in G as (? & [=] & _).
  - apply query_out in H as ->. apply elem_of_list_In, in_map_iff in G as (? & [=] & _).
  - cbn in H. apply reply_timers in H as [(_ & -> & _)|(x & -> & V & H)]; [by apply elem_of_nil in G|].
    right. destruct (process_out _ _ _ _ _ H G) as [[= ->] W]. eauto.
  - left. destruct (fire_out _ _ _ _ _ _ _ H G) as (x & f & T & -> & _). eexists _, _, _, _, _. done.
  - cbn in H. injection H as <- <-. by apply elem_of_nil in G.
  - cbn in H. injection H as <- <-. by apply elem_of_nil in G.
  - cbn in H. injection H as <- <-. by apply elem_of_nil in G.
Qed.

Lemma step_timers s e s' o x f : mstep s e = Some (s', o) -> TAccuse x f ∈ m_timers s' ->
  TAccuse x f ∈ m_timers s \/ exists r, e = MReply f x r /\ bad_answer z c f r.
Proof.
  intros H G. destruct e as [y|m|m|f' u r|n m st| |m|m].
  - cbn in H. injection H as H. apply gossip_quiet in H as [_ (t & E & N)]. left. rewrite E in G.
    apply elem_of_app in G as [G|G]; [done|by apply N in G].
  - cbn in H. injection H as <- <-. auto.
  - cbn in H. injection H as <- <-. auto.
  - cbn in H. apply reply_timers in H as [(-> & _ & B)|(y & -> & V & H)].
    + destruct s. cbn in G. apply elem_of_app in G as [G|G%elem_of_list_singleton]; [auto|]. injection G as -> ->. eauto.
    + apply process_timers in H as (t & E & N). left. rewrite E in G. apply elem_of_app in G as [G|G]; [done|by apply N in G].
  - cbn in H. destruct (m_timers s !! n) as [t|] eqn:E; [|injection H as <- <-; auto]. left.
    assert (TAccuse x f ∈ delete n (m_timers s)) as D.
    { destruct t as [ca d|]; injection H as <- <-; [unfold crv_timer in G; destruct (m_crv _ !! ca)|]; by destruct s. }
    apply elem_of_list_lookup in D as [k D].
    destruct (decide (k < n)) as [L|L].
    + rewrite lookup_delete_lt in D by done. by eapply elem_of_list_lookup_2.
    + rewrite lookup_delete_ge in D by lia. by eapply elem_of_list_lookup_2.
  - cbn in H. injection H as <- <-. auto.
  - cbn in H. injection H as <- <-. auto.
  - cbn in H. injection H as <- <-. auto.
Qed.

Lemma accused_cause l0 s l s' o g : timers_caused l0 s -> mrun s l = Some (s', o) -> MSend g ∈ o -> g_type g = ACC_INIT ->
  (exists m st, g = accusation c m st (g_p0 g)) /\
  exists f r, MReply f (g_p0 g) r ∈ (l0 ++ l)%list /\ bad_answer z c f r.
Proof.
  revert l0 s o. induction l as [|e r IH]; intros l0 s o T; cbn; [intros [= <- <-]; by intros ?%elem_of_nil|].
  destruct (mstep s e) as [[s1 o1]|] eqn:S; [|done]. destruct (mrun s1 r) as [[s2 o2]|] eqn:R; [|done].
  intros [= <- <-] G A. apply elem_of_app in G as [G|G].
  - destruct (step_sends _ _ _ _ _ S G) as [(n & m & st & x & f & -> & E & ->)|(f & u & _ & _ & [[B _]|[B _]])];
      [|by rewrite B in A..].
    split; [by exists m, st|]. apply elem_of_list_lookup_2, T in E as (rr & E & B). exists f, rr. split; [set_solver|done].
  - destruct (IH (l0 ++ [e])%list s1 o2) as [B (f & rr & E & B')]; try done.
    + intros x f H. destruct (step_timers _ _ _ _ _ _ S H) as [H1|(rr & -> & H2)].
      * apply T in H1 as (rr & H1 & H2). exists rr. split; [set_solver|done].
      * exists rr. split; [set_solver|done].
    + split; [done|]. exists f, rr. split; [|done]. rewrite <- app_assoc in E. done.
Qed.

Lemma forwarded s l s' o g : mrun s l = Some (s', o) -> MSend g ∈ o ->
  (exists m st, g = accusation c m st (g_p0 g)) \/
  (verify (mc_crypto c) g = Accept /\ (exists f u, MReply f u (Some g) ∈ l) /\
   ((g_type g = STH_INIT /\ g_signer g ∈ mc_all_loggers c) \/ (g_type g = REV_INIT /\ g_signer g ∈ mc_all_cas c))).
Proof.
  revert s o. induction l as [|e r IH]; intros s o; cbn; [intros [= <- <-]; by intros ?%elem_of_nil|].
  destruct (mstep s e) as [[s1 o1]|] eqn:S; [|done]. destruct (mrun s1 r) as [[s2 o2]|] eqn:R; [|done].
  intros [= <- <-] G. apply elem_of_app in G as [G|G].
  - destruct (step_sends _ _ _ _ _ S G) as [(n & m & st & x & f & -> & E & ->)|(f & u & -> & V & W)]; [left; by exists m, st|].
    right. split_and!; try done. exists f, u. set_solver.
  - destruct (IH _ _ R G) as [B|(V & (f & u & B) & W)]; [auto|]. right. split_and!; try done. exists f, u. set_solver.
Qed.

(** ** The revocation vectors never change *)

Lemma crv_step s e s' o ca v : mstep s e = Some (s', o) -> m_crv s !! ca = Some v -> m_crv s' !! ca = Some v.
Proof.
  assert (forall g, m_crv (store s g) = m_crv s) as K.
  { intros g. destruct s. unfold Monitor.store. by destruct (obj_kind g) as [[[]| |[]]|[]|]. }
  assert (forall g s' o, process_valid z c s g = (s', o) -> m_crv s' = m_crv s) as K2.
  { intros g s2 o2 [-> |(-> & _)]%process_cases; [done|apply K]. }
  intros H V. destruct e as [y|m|m|f' u r|n m st| |m|m]; cbn in H.
  - injection H as H. unfold handle_gossip in H. destruct (is_duplicate s y); [by injection H as <- <-|].
    destruct (obj_kind y) as [[[]| |[]]|[]|]; try (by erewrite K2); injection H as <- <-; by rewrite K.
  - by injection H as <- <-.
  - by injection H as <- <-.
  - apply reply_timers in H as [(-> & _ & B)|(y & -> & _ & H)]; [by destruct s|by rewrite (K2 _ _ _ H)].
  - destruct (m_timers s !! n) as [[ca' d|]|]; injection H as <- <-; [|by destruct s|done].
    unfold crv_timer. destruct (m_crv (set_timers s _) !! ca') eqn:E; [by destruct s|].
    assert (ca' <> ca) by (intros ->; destruct s; cbn in *; congruence).
    destruct s. cbn in *. by rewrite lookup_insert_ne.
  - by injection H as <- <-.
  - by injection H as <- <-.
  - by injection H as <- <-.
Qed.

Lemma crv_frozen s l s' o ca v : mrun s l = Some (s', o) -> m_crv s !! ca = Some v -> m_crv s' !! ca = Some v.
Proof.
  intros R V. apply (run_inv z c (λ s, m_crv s !! ca = Some v) s l s' o); [|done|done].
  intros s1 e s2 o2 _ V1 S. by eapply crv_step.
Qed.

End facts.
