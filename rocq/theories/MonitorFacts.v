(** Invariants of the monitor. *)
From Verif Require Import Bytes Hex Json JsonFacts Types Crypto Verify Bitset Revocation Clock Monitor SpecMonitor.
Open Scope string_scope.

Section facts.
Context {P : prims} (z : gzip) (c : mconf (P:=P)).
Implicit Types (s : mst) (g : gobj) (l : list mevent) (o : list mout).
Notation mstep := (mstep z c).
Notation mrun := (mrun z c).
Notation store := (store z).

Lemma mrun_app s l1 l2 : mrun s (l1 ++ l2) =
  match mrun s l1 with
  | None => None
  | Some (s1, o1) => match mrun s1 l2 with None => None | Some (s2, o2) => Some (s2, o1 ++ o2)%list end
  end.
Proof.
  revert s. induction l1 as [|e r IH]; intros s.
  - cbn. by destruct (mrun s l2) as [[]|].
  - cbn. destruct (mstep s e) as [[s1 o1]|]; [|done]. rewrite IH.
    destruct (mrun s1 r) as [[s2 o2]|]; [|done].
    destruct (mrun s2 l2) as [[s3 o3]|]; [|done]. by rewrite app_assoc.
Qed.

(** The seven object storages are the same. *)
Definition same_tables s s' : Prop :=
  m_temp s' = m_temp s /\ m_con s' = m_con s /\ m_acc s' = m_acc s /\ m_con_d s' = m_con_d s /\
  m_acc_d s' = m_acc_d s /\ m_sth s' = m_sth s /\ m_rev s' = m_rev s.

(** How an object gets stored. *)
Inductive stores s : mevent -> gobj -> Prop :=
| stores_gossip g : monitor_type (g_type g) -> is_duplicate s g = false -> stores s (MGossip g) g
| stores_reply f u g : verify (mc_crypto c) g = Accept -> g_type g ∈ [STH_FULL; REV_FULL; CON_INIT; ACC_FULL] ->
    stores s (MReply f u (Some g)) g.

Inductive step_case s (e : mevent) s' : Prop :=
| case_same : same_tables s s' -> step_case s e s'
| case_store g : stores s e g -> s' = store s g -> step_case s e s'
| case_clean : e = MClean -> s' = clean s -> step_case s e s'
| case_wipe m : e = MWipe m -> s' = wipe m s -> step_case s e s'.

Lemma same_refl s : same_tables s s.
Proof. by split_and!. Qed.

(** Which type strings select which case. *)
Lemma kind_cases t : match kind_of t with
  | KObj (OInit Sth) => t = STH_INIT | KObj (OInit Rev) => t = REV_INIT | KObj (OInit Acc) => t = ACC_INIT
  | KObj OCon => t = CON_INIT
  | KFrag Sth => t = STH_FRAG | KFrag Rev => t = REV_FRAG | KFrag Acc => t = ACC_FRAG
  | KObj (OFull Sth) => t = STH_FULL | KObj (OFull Rev) => t = REV_FULL | KObj (OFull Acc) => t = ACC_FULL
  | KUnknown => True
  end.
Proof.
  unfold kind_of. repeat (match goal with |- context [if ?b then _ else _] => destruct b eqn:? end;
    [by apply String.eqb_eq|]). done.
Qed.

Lemma process_cases s g s' o : process_valid z c s g = (s', o) ->
  (s' = s) \/ (s' = store s g /\ o = [] /\ g_type g ∈ [STH_FULL; REV_FULL; CON_INIT; ACC_FULL]).
Proof.
  unfold process_valid, obj_kind. pose proof (kind_cases (g_type g)) as K.
  destruct (kind_of (g_type g)) as [[[]| |[]]|[]|]; intros [= <- <-]; auto; right; split_and!; try done; rewrite K; set_solver.
Qed.

Lemma reply_cases s f u r s' o : handle_reply z c s f u r = Some (s', o) ->
  (exists t, s' = set_timers s t /\ o = []) \/
  (exists g, r = Some g /\ verify (mc_crypto c) g = Accept /\ (s', o) = process_valid z c s g).
Proof.
  unfold handle_reply, wait_then_accuse. destruct r as [g|]; [|intros [= <- <-]; eauto].
  destruct (verify (mc_crypto c) g) eqn:V; try done; [|intros [= <- <-]; eauto].
  assert (forall p : mst * list mout, Some p = Some (s', o) -> p = process_valid z c s g ->
    exists g', Some g = Some g' /\ verify (mc_crypto c) g' = Accept /\ (s', o) = process_valid z c s g') as H
    by (intros p [= ->] ->; eauto).
  destruct f; [eauto| |eauto].
  destruct (check_rev z c s g); try done; [eauto|intros [= <- <-]; eauto].
Qed.

Lemma same_timers s t : same_tables s (set_timers s t).
Proof. by destruct s. Qed.

Lemma mstep_case s e s' o : mstep s e = Some (s', o) -> step_case s e s'.
Proof.
  destruct e as [g|m|m|f u r|n m st| |m|m]; cbn [Monitor.mstep].
  - intros [= H]. unfold handle_gossip in H. destruct (is_duplicate s g) eqn:D.
    { injection H as <- <-. apply case_same, same_refl. }
    unfold obj_kind in H. pose proof (kind_cases (g_type g)) as K.
    destruct (kind_of (g_type g)) as [[[]| |[]]|[]|] eqn:E;
      try (injection H as <- <-; apply (case_store _ _ _ g); [|done]; constructor; [|done];
           unfold monitor_type; rewrite K; set_solver);
      (apply process_cases in H as [-> | (-> & _ & T)]; [apply case_same, same_refl|];
       apply (case_store _ _ _ g); [|done]; constructor; [|done]; unfold monitor_type; set_solver).
  - intros [= <- <-]. apply case_same, same_refl.
  - intros [= <- <-]. apply case_same, same_refl.
  - intros [(t & -> & ->)|(g & -> & V & H)]%reply_cases; [apply case_same, same_timers|].
    symmetry in H. apply process_cases in H as [-> | (-> & _ & T)]; [apply case_same, same_refl|].
    apply (case_store _ _ _ g); [|done]. by constructor.
  - destruct (m_timers s !! n) as [[ca d|e f]|]; intros H; injection H as <- <-.
    + apply case_same. unfold crv_timer. destruct (m_crv _ !! ca); by destruct s.
    + apply case_same. by destruct s.
    + apply case_same, same_refl.
  - intros [= <- <-]. by apply case_clean.
  - intros [= <- <-]. by apply (case_wipe _ _ _ m).
  - intros [= <- <-]. apply case_same. by destruct s.
Qed.

Lemma stores_carries s e g : stores s e g -> carries e g.
Proof. intros []; [by left|right; eauto]. Qed.

Lemma stores_type s e g : stores s e g -> monitor_type (g_type g).
Proof. intros []; [done|]. unfold monitor_type. set_solver. Qed.

(** The tables after StoreObject. *)
Lemma store_sth s g : m_sth (store s g) = if decide (g_type g = STH_FULL) then <[get_id g := g]> (m_sth s) else m_sth s.
Proof.
  destruct s. unfold Monitor.store, obj_kind. pose proof (kind_cases (g_type g)) as K.
  destruct (kind_of (g_type g)) as [[[]| |[]]|[]|] eqn:E; cbn; try (rewrite K; done).
  destruct decide as [H|]; [rewrite H in E; done|done].
Qed.
Lemma store_rev s g : m_rev (store s g) = if decide (g_type g = REV_FULL) then <[get_id g := g]> (m_rev s) else m_rev s.
Proof.
  destruct s. unfold Monitor.store, obj_kind. pose proof (kind_cases (g_type g)) as K.
  destruct (kind_of (g_type g)) as [[[]| |[]]|[]|] eqn:E; cbn; try (rewrite K; done).
  destruct decide as [H|]; [rewrite H in E; done|done].
Qed.
Lemma store_con s g : m_con (store s g) = if decide (g_type g = CON_INIT) then <[get_id g := g]> (m_con s) else m_con s.
Proof.
  destruct s. unfold Monitor.store, obj_kind. pose proof (kind_cases (g_type g)) as K.
  destruct (kind_of (g_type g)) as [[[]| |[]]|[]|] eqn:E; cbn; try (rewrite K; done).
  destruct decide as [H|]; [rewrite H in E; done|done].
Qed.
Lemma store_con_d s g : m_con_d (store s g) = if decide (g_type g = CON_INIT) then <[get_id g := g]> (m_con_d s) else m_con_d s.
Proof.
  destruct s. unfold Monitor.store, obj_kind. pose proof (kind_cases (g_type g)) as K.
  destruct (kind_of (g_type g)) as [[[]| |[]]|[]|] eqn:E; cbn; try (rewrite K; done).
  destruct decide as [H|]; [rewrite H in E; done|done].
Qed.
Lemma store_acc s g : m_acc (store s g) = if decide (g_type g = ACC_FULL) then <[get_id g := g]> (m_acc s) else m_acc s.
Proof.
  destruct s. unfold Monitor.store, obj_kind. pose proof (kind_cases (g_type g)) as K.
  destruct (kind_of (g_type g)) as [[[]| |[]]|[]|] eqn:E; cbn; try (rewrite K; done).
  destruct decide as [H|]; [rewrite H in E; done|done].
Qed.
Lemma store_acc_d s g : m_acc_d (store s g) = if decide (g_type g = ACC_FULL) then <[get_id g := g]> (m_acc_d s) else m_acc_d s.
Proof.
  destruct s. unfold Monitor.store, obj_kind. pose proof (kind_cases (g_type g)) as K.
  destruct (kind_of (g_type g)) as [[[]| |[]]|[]|] eqn:E; cbn; try (rewrite K; done).
  destruct decide as [H|]; [rewrite H in E; done|done].
Qed.
Lemma store_temp s g : monitor_type (g_type g) -> m_temp (store s g) =
  if decide (g_type g = STH_INIT \/ g_type g = REV_INIT) then <[get_id g := g]> (m_temp s) else m_temp s.
Proof.
  intros M. destruct s. unfold Monitor.store, obj_kind. pose proof (kind_cases (g_type g)) as K.
  destruct (kind_of (g_type g)) as [[[]| |[]]|[]|] eqn:E; cbn; try (rewrite K; done);
    try (rewrite K in M; unfold monitor_type in M; set_solver).
  unfold monitor_type in M.
  repeat (apply elem_of_cons in M as [M|M]; [rewrite M in E; done|]). by apply elem_of_nil in M.
Qed.

(** Invariants over whole histories. *)
Lemma run_inv (I : mst -> Prop) s l s' o :
  (forall s e s' o, e ∈ l -> I s -> mstep s e = Some (s', o) -> I s') ->
  I s -> mrun s l = Some (s', o) -> I s'.
Proof.
  revert s o. induction l as [|e r IH]; intros s o H Hs; cbn; [by intros [= <- <-]|].
  destruct (mstep s e) as [[s1 o1]|] eqn:E; [|done].
  destruct (mrun s1 r) as [[s2 o2]|] eqn:R; [|done]. intros [= <- <-].
  apply (IH s1 o2); [|eapply H; [|exact Hs|exact E]; set_solver|done].
  intros s3 e' s4 o4 He. apply H. set_solver.
Qed.

(** * C41 *)

Definition all_filed s : Prop :=
  filed (m_temp s) [STH_INIT; REV_INIT] /\ filed (m_con s) [CON_INIT] /\ filed (m_acc s) [ACC_FULL] /\
  filed (m_con_d s) [CON_INIT] /\ filed (m_acc_d s) [ACC_FULL] /\
  filed (m_sth s) [STH_FULL] /\ filed (m_rev s) [REV_FULL].

Lemma filed_insert (t : gmap gid gobj) tys g : g_type g ∈ tys -> filed t tys -> filed (<[get_id g := g]> t) tys.
Proof.
  intros G F i x [[<- <-]|[_ H]]%lookup_insert_Some; [done|by apply F].
Qed.
Lemma filed_filter (Q : gid * gobj -> Prop) `{!forall x, Decision (Q x)} (t : gmap gid gobj) tys :
  filed t tys -> filed (filter Q t) tys.
Proof. intros F i x [G _]%map_filter_lookup_Some. by apply F. Qed.

Lemma filed_step s e s' o : all_filed s -> mstep s e = Some (s', o) -> all_filed s'.
Proof.
  intros F H. apply mstep_case in H as [(E1&E2&E3&E4&E5&E6&E7)|g S ->|_ ->|m _ ->].
  - unfold all_filed. by rewrite E1, E2, E3, E4, E5, E6, E7.
  - destruct F as (F1&F2&F3&F4&F5&F6&F7). pose proof (stores_type _ _ _ S) as T. unfold all_filed.
    rewrite store_sth, store_rev, store_con, store_con_d, store_acc, store_acc_d, (store_temp _ _ T).
    split_and!; case_decide as D; try done; apply filed_insert; try done; set_solver.
  - destruct F as (F1&F2&F3&F4&F5&F6&F7). unfold all_filed, clean. cbn.
    split_and!; try done; by apply filed_filter.
  - destruct F as (F1&F2&F3&F4&F5&F6&F7). unfold all_filed, wipe. cbn.
    split_and!; try done; by apply filed_filter.
Qed.

Lemma init_filed : all_filed monitor_init.
Proof. unfold all_filed. split_and!; intros i g H; cbn in H; by rewrite lookup_empty in H. Qed.

Lemma reached_filed l s : reached z c l s -> all_filed s.
Proof.
  intros [o R]. eapply (run_inv all_filed); [|exact init_filed|exact R].
  intros s1 e s2 o' _. apply filed_step.
Qed.

Lemma con_step s e s' o i g : mstep s e = Some (s', o) -> m_con s !! i = Some g ->
  exists g', m_con s' !! i = Some g' /\ (g' = g \/ carries e g' /\ g_type g' = CON_INIT).
Proof.
  intros H G. apply mstep_case in H as [(E1&E2&E3&E4&E5&E6&E7)|g1 S ->|_ ->|m _ ->]; [rewrite E2; eauto| |eauto|eauto].
  rewrite store_con. case_decide as D; [|eauto].
  destruct (decide (get_id g1 = i)) as [<-|]; [|rewrite lookup_insert_ne by done; eauto].
  rewrite lookup_insert. exists g1. split; [done|]. right. split; [by eapply stores_carries|done].
Qed.
Lemma acc_step s e s' o i g : mstep s e = Some (s', o) -> m_acc s !! i = Some g ->
  exists g', m_acc s' !! i = Some g' /\ (g' = g \/ carries e g' /\ g_type g' = ACC_FULL).
Proof.
  intros H G. apply mstep_case in H as [(E1&E2&E3&E4&E5&E6&E7)|g1 S ->|_ ->|m _ ->]; [rewrite E3; eauto| |eauto|eauto].
  rewrite store_acc. case_decide as D; [|eauto].
  destruct (decide (get_id g1 = i)) as [<-|]; [|rewrite lookup_insert_ne by done; eauto].
  rewrite lookup_insert. exists g1. split; [done|]. right. split; [by eapply stores_carries|done].
Qed.

Lemma con_kept s l s' o i g : mrun s l = Some (s', o) -> m_con s !! i = Some g ->
  exists g', m_con s' !! i = Some g' /\ (g' = g \/ received l g').
Proof.
  intros R G.
  apply (run_inv (λ s, exists g', m_con s !! i = Some g' /\ (g' = g \/ received l g')) s l s' o); [|eauto|done].
  intros s1 e s2 o2 He (g' & G' & W) H.
  destruct (con_step _ _ _ _ _ _ H G') as (g2 & G2 & [-> |[C _]]); [eauto|].
  exists g2. split; [done|]. right. exists e. done.
Qed.
Lemma acc_kept s l s' o i g : mrun s l = Some (s', o) -> m_acc s !! i = Some g ->
  exists g', m_acc s' !! i = Some g' /\ (g' = g \/ received l g').
Proof.
  intros R G.
  apply (run_inv (λ s, exists g', m_acc s !! i = Some g' /\ (g' = g \/ received l g')) s l s' o); [|eauto|done].
  intros s1 e s2 o2 He (g' & G' & W) H.
  destruct (acc_step _ _ _ _ _ _ H G') as (g2 & G2 & [-> |[C _]]); [eauto|].
  exists g2. split; [done|]. right. exists e. done.
Qed.

Lemma gossip_stored s g s' o : monitor_type (g_type g) -> mstep s (MGossip g) = Some (s', o) -> at_home s' g.
Proof.
  intros T [= H]. unfold handle_gossip in H. destruct (is_duplicate s g) eqn:D.
  - injection H as <- <-. unfold is_duplicate in D. apply bool_decide_eq_true in D.
    unfold get_object in D. cbn in D.
    unfold monitor_type in T. unfold at_home.
    assert (forall m : gmap gid gobj, default zero_obj (m !! get_id g) = g -> g_type g <> "" -> m !! get_id g = Some g) as X.
    { intros m Hm N. destruct (m !! get_id g) as [x|]; cbn in Hm; [by subst|]. by rewrite <- Hm in N. }
    repeat (apply elem_of_cons in T as [T|T]; [rewrite T in D; cbn in D; apply X in D; [|by rewrite T]; rewrite ?T; tauto|]).
    by apply elem_of_nil in T.
  - assert (s' = store s g) as ->.
    { unfold process_valid in H. destruct (obj_kind g) as [[[]| |[]]|[]|] eqn:E; try (by injection H as <- <-);
        exfalso; unfold obj_kind in E; unfold monitor_type in T;
        repeat (apply elem_of_cons in T as [T|T]; [by rewrite T in E|]); by apply elem_of_nil in T. }
    unfold at_home. rewrite store_sth, store_rev, store_con, store_acc, (store_temp _ _ T).
    pose proof T as T'. unfold monitor_type in T'.
    apply elem_of_cons in T' as [T'|T']; [left; split; [done|]; rewrite decide_True by done; apply lookup_insert|].
    apply elem_of_cons in T' as [T'|T']; [right; left; split; [done|]; rewrite decide_True by done; apply lookup_insert|].
    do 2 right.
    apply elem_of_cons in T' as [T'|T']; [left; split; [done|]; rewrite decide_True by done; apply lookup_insert|].
    right.
    apply elem_of_cons in T' as [T'|T']; [left; split; [done|]; rewrite decide_True by done; apply lookup_insert|].
    right.
    assert (g_type g = STH_INIT \/ g_type g = REV_INIT) as T2 by set_solver.
    split; [done|]. rewrite decide_True by done. apply lookup_insert.
Qed.

(** * C42 *)

Lemma held_step s e s' o : mstep s e = Some (s', o) -> forall g, held s' g -> held s g \/ stores s e g.
Proof.
  intros H g. apply mstep_case in H as [(E1&E2&E3&E4&E5&E6&E7)|g1 S ->|_ ->|m _ ->]; unfold held.
  - rewrite E2, E3, E4, E5, E6, E7. auto.
  - rewrite store_sth, store_rev, store_con, store_con_d, store_acc, store_acc_d.
    intros [i W]. destruct (decide (g1 = g)) as [->|N]; [by right|]. left. exists i.
    assert (forall m : gmap gid gobj, <[get_id g1 := g1]> m !! i = Some g -> m !! i = Some g) as X.
    { intros m0 [[_ E]|[_ E]]%lookup_insert_Some; done. }
    repeat case_decide; naive_solver.
  - intros [i W]. left. exists i. unfold clean in W. cbn in W. rewrite !map_filter_lookup_Some in W. tauto.
  - intros [i W]. left. exists i. unfold wipe in W. cbn in W. rewrite !map_filter_lookup_Some in W. tauto.
Qed.

Lemma held_received l s g : reached z c l s -> held s g -> received l g /\
  (verify (mc_crypto c) g = Accept \/ MGossip g ∈ l).
Proof.
  intros [o R]. revert g.
  apply (run_inv (λ s, forall g, held s g -> received l g /\ (verify (mc_crypto c) g = Accept \/ MGossip g ∈ l))
          monitor_init l s o); [| |done].
  - intros s1 e s2 o2 He IH H g G. destruct (held_step _ _ _ _ H g G) as [G1|S]; [by apply IH|].
    split; [exists e; split; [done|by eapply stores_carries]|].
    destruct S; [by right|by left].
  - intros g [i W]. cbn in W. rewrite !lookup_empty in W. naive_solver.
Qed.

Lemma held_verified l s g : reached z c l s ->
  (forall x, MGossip x ∈ l -> g_type x ∈ [STH_FULL; REV_FULL; CON_INIT; ACC_FULL] -> verify (mc_crypto c) x = Accept) ->
  held s g -> verify (mc_crypto c) g = Accept.
Proof.
  intros R V H. destruct (held_received l s g R H) as [_ [A|M]]; [done|]. apply V; [done|].
  pose proof (reached_filed _ _ R) as (F1&F2&F3&F4&F5&F6&F7).
  destruct H as [i [H|[H|[H|[H|[H|H]]]]]].
  - apply F6 in H as [_ H]. set_solver.
  - apply F7 in H as [_ H]. set_solver.
  - apply F2 in H as [_ H]. set_solver.
  - apply F3 in H as [_ H]. set_solver.
  - apply F4 in H as [_ H]. set_solver.
  - apply F5 in H as [_ H]. set_solver.
Qed.
End facts.
