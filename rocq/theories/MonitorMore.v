(** The update file, the answers that stop a monitor, and counting accusations. *)
From Verif Require Import Bytes Hex Base64 Json JsonFacts CryptoFacts Types WireFacts Crypto Verify SpecVerify VerifyFacts Bitset Revocation Clock CodecFacts SpecCodec
  Monitor SpecMonitor MonitorFacts MonitorUpdate.
Open Scope string_scope.

Lemma wf_objs l : wf_json (JArr (map gobj_json l)).
Proof. constructor. apply Forall_fmap. apply Forall_true. intros g. apply wf_gobj. Qed.

Lemma wf_update u : wf_json (update_json u).
Proof. unfold update_json. constructor. repeat (constructor; [try apply wf_objs; constructor|]). constructor. Qed.

Lemma dec_obj_json g : dec_obj (gobj_json g) = Some g.
Proof. exact (gobj_of_json_json g). Qed.

Lemma dec_objs_json old l : dec_objs old (JArr (map gobj_json l)) = Some l.
Proof.
  cbn [dec_objs]. induction l as [|g l IH]; [done|]. cbn [map mapM]. rewrite dec_obj_json. cbn. by rewrite IH.
Qed.

Lemma update_fields_json u : update_fields zero_update
  [("STHs", JArr (map gobj_json (u_sths u))); ("REVs", JArr (map gobj_json (u_revs u)));
   ("POM_CONs", JArr (map gobj_json (u_cons u))); ("POM_ACCs", JArr (map gobj_json (u_accs u)));
   ("MonitorID", JStr (u_monitor u)); ("Period", JStr (u_period u))] = Some u.
Proof.
  destruct u as [a b c d e f]. cbn [u_sths u_revs u_cons u_accs u_monitor u_period zero_update].
  cbn [update_fields update_field zero_update].
  change (lower_str "STHs") with "sths". change (lower_str "REVs") with "revs".
  change (lower_str "POM_CONs") with "pom_cons". change (lower_str "POM_ACCs") with "pom_accs".
  change (lower_str "MonitorID") with "monitorid". change (lower_str "Period") with "period".
  cbn [String.eqb Ascii.eqb Bool.eqb]. rewrite dec_objs_json. cbn [mbind option_bind].
  cbn [String.eqb Ascii.eqb Bool.eqb]. rewrite dec_objs_json. cbn [mbind option_bind].
  cbn [String.eqb Ascii.eqb Bool.eqb]. rewrite dec_objs_json. cbn [mbind option_bind].
  cbn [String.eqb Ascii.eqb Bool.eqb]. rewrite dec_objs_json. cbn [mbind option_bind].
  cbn [String.eqb Ascii.eqb Bool.eqb dec_string mbind option_bind]. done.
Qed.

Lemma update_roundtrip u : update_unmarshal (update_marshal u) = Some u.
Proof.
  unfold update_unmarshal, update_marshal. rewrite parse_json_print by apply wf_update.
  apply update_fields_json.
Qed.

(** The body served is a JSON string, which is no update. *)
Lemma served_is_string u : parse_json (served u) = Some (JStr (b64_encode (update_marshal u))).
Proof.
  unfold served, parse_json. rewrite parse_print; [done|constructor| |done].
  pose proof (fuel_len (JStr (b64_encode (update_marshal u))) (wf_str _)). rewrite len_app. lia.
Qed.

Lemma served_undecodable u : update_unmarshal (served u) = None.
Proof. unfold update_unmarshal. by rewrite served_is_string. Qed.

Lemma filter_len_app {A} (f : A -> bool) l1 l2 : length (List.filter f (l1 ++ l2)) = length (List.filter f l1) + length (List.filter f l2).
Proof. by rewrite List.filter_app, app_length. Qed.

Lemma filter_none {A} (f : A -> bool) l : (forall x, x ∈ l -> f x = false) -> List.filter f l = [].
Proof.
  induction l as [|a l IH]; intros H; [done|]. cbn. rewrite H by set_solver. apply IH. intros x Hx. apply H. set_solver.
Qed.

Lemma filter_delete {A} (f : A -> bool) l n x : l !! n = Some x ->
  length (List.filter f (delete n l)) + (if f x then 1 else 0) = length (List.filter f l).
Proof.
  revert n. induction l as [|a l IH]; intros [|n]; cbn; [done..| |].
  - intros [= ->]. destruct (f x); cbn; lia.
  - intros H. specialize (IH n H). unfold delete in *. destruct (f a); cbn; lia.
Qed.

Section facts.
Context {P : prims} (z : gzip) (c : mconf (P:=P)).
Implicit Types (s : mst) (g : gobj) (l : list mevent) (o : list mout).
Notation mstep := (mstep z c).
Notation mrun := (mrun z c).

(** What requestupdate answers after an update was written. *)
Lemma request_answer s period text : m_files s !! ("Period_" ++ period) = Some text ->
  forall u, text = update_marshal u -> request_update s period = Some (served u).
Proof. intros H u ->. unfold request_update. rewrite H. by rewrite update_roundtrip. Qed.

Lemma files_step s e s' o d text : mstep s e = Some (s', o) -> m_files s' !! d = Some text ->
  m_files s !! d = Some text \/ exists u, text = update_marshal u.
Proof.
  assert (forall g, m_files (store z s g) = m_files s) as K.
  { intros g. destruct s. unfold Monitor.store. by destruct (obj_kind g) as [[[]| |[]]|[]|]. }
  assert (forall g s' o, process_valid z c s g = (s', o) -> m_files s' = m_files s) as K2.
  { intros g s2 o2 [-> |(-> & _)]%process_cases; [done|apply K]. }
  intros H V. destruct e as [y|m|m|f' u r|n m st| |m|m]; cbn in H.
  - injection H as H. left. unfold handle_gossip in H. destruct (is_duplicate s y); [by injection H as <- <-|].
    destruct (obj_kind y) as [[[]| |[]]|[]|]; try (by rewrite (K2 _ _ _ H) in V); injection H as <- <-; by rewrite K in V.
  - injection H as <- <-. auto.
  - injection H as <- <-. auto.
  - left. apply reply_timers in H as [(-> & _ & B)|(y & -> & _ & H)]; [by destruct s|by rewrite (K2 _ _ _ H) in V].
  - left. destruct (m_timers s !! n) as [[ca' d'|]|]; injection H as <- <-; [|by destruct s|done].
    unfold crv_timer in V. destruct (m_crv (set_timers s _) !! ca'); by destruct s.
  - injection H as <- <-. auto.
  - injection H as <- <-. auto.
  - injection H as <- <-. cbn in V. apply lookup_insert_Some in V as [[_ <-]|[_ V]]; [right|by left].
    by exists (generate_update c s m).
Qed.

Lemma files_updates l s d text : reached z c l s -> m_files s !! d = Some text -> exists u, text = update_marshal u.
Proof.
  intros [o R].
  apply (run_inv z c (λ s, m_files s !! d = Some text -> exists u, text = update_marshal u) monitor_init l s o); [|done|done].
  intros s1 e s2 o2 _ IH S H. destruct (files_step _ _ _ _ _ _ S H) as [H1|H1]; auto.
Qed.

Lemma never_decodable l s period body : reached z c l s -> request_update s period = Some body -> update_unmarshal body = None.
Proof.
  intros R H. unfold request_update in H. destruct (m_files s !! _) as [text|] eqn:E; [|done].
  destruct (update_unmarshal text) as [u|]; [|done]. injection H as <-. apply served_undecodable.
Qed.

(** ** Death *)

Lemma verify_srh_panics (cc : cconf P) srh d old p : verify_srh cc srh d old p = Panics ->
  rsa_nokey_panics P = true /\ forall x, rsasig_from_string srh = Some x -> cc_rsa_pubs cc !! rs_id x = None.
Proof.
  unfold verify_srh. destruct (cc_rsa_pubs cc !! _) eqn:E; [by destruct (rsa_check _ _ _)|].
  destruct (rsa_nokey_panics P); [|done]. intros _. split; [done|]. intros x H. by rewrite H in E.
Qed.

Lemma step_survives s e : (forall f u g, e = MReply f u (Some g) -> rsa_nokey_panics P = false \/ identities_known z c f g) ->
  exists p, mstep s e = Some p.
Proof.
  intros H. destruct e as [y|m|m|f u r|n m st| |m|m]; cbn; eauto.
  - destruct r as [g|]; [|cbn; eauto]. unfold handle_reply. specialize (H f u g eq_refl).
    destruct (verify (mc_crypto c) g) eqn:V; [|eauto|].
    + destruct f; eauto. destruct (check_rev z c s g) eqn:K; eauto. exfalso.
      unfold check_rev in K. destruct (srh_and_dcrv z g) as [srh d] eqn:E.
      apply verify_srh_panics in K as [K1 K2]. destruct H as [H|[_ H]]; [congruence|].
      destruct (H eq_refl) as (x & X & [pk N]). rewrite E in X. cbn in X. by rewrite (K2 x X) in N.
    + exfalso. apply verify_panics in V as (V1 & str & x & W & X & N). destruct H as [H|[H _]]; [congruence|].
      destruct (H str x W X) as [pk Y]. by rewrite Y in N.
  - destruct (m_timers s !! n); eauto.
Qed.

Lemma survives s l : (forall f u g, MReply f u (Some g) ∈ l -> rsa_nokey_panics P = false \/ identities_known z c f g) ->
  exists s' o, mrun s l = Some (s', o).
Proof.
  revert s. induction l as [|e r IH]; intros s H; cbn; [eauto|].
  destruct (step_survives s e) as [[s1 o1] ->].
  { intros f u g ->. apply (H f u). set_solver. }
  destruct (IH s1) as (s2 & o2 & ->); eauto. intros f u g Hg. apply (H f u). set_solver.
Qed.

(** An answer signed in the name of an identity without key. *)
Lemma stranger_kills s f u g x : rsa_nokey_panics P = true -> cc_sign_scheme (mc_crypto c) = "rsa" ->
  is_init g -> g_s0 g <> "" -> g_p0 g <> "" -> rsasig_from_string (g_s0 g) = Some x -> cc_rsa_pubs (mc_crypto c) !! rs_id x = None ->
  mstep s (MReply f u (Some g)) = None.
Proof.
  intros Hp Hs Hi H0 H1 Hx Hn. cbn. unfold handle_reply.
  assert (verify (mc_crypto c) g = Panics) as ->; [|done].
  assert (verify (mc_crypto c) g = verify_rsa_payload (mc_crypto c) g) as ->.
  { unfold verify, obj_kind. destruct Hi as [E|[E|E]]; by rewrite E. }
  unfold verify_rsa_payload. rewrite Hx. unfold cc_verify. rewrite Hs, Hn, Hp.
  destruct (g_s0 g); [done|]. by destruct (g_p0 g).
Qed.

(** ** One accusation per bad answer *)

Lemma count_step s e s' o x : mstep s e = Some (s', o) ->
  length (List.filter (accuses_one x) o) + length (List.filter (waits_one x) (m_timers s')) <=
  length (List.filter (waits_one x) (m_timers s)) + (if answered_one x e then 1 else 0).
Proof.
  intros H. destruct e as [y|m|m|f u r|n m st| |m|m].
  - cbn in H. injection H as H. apply gossip_quiet in H as [-> (t & -> & N)]. rewrite filter_len_app.
    rewrite (filter_none _ t); [cbn; lia|]. intros [ca d|e f] Ht; [done|by apply N in Ht].
  - pose proof (proj1 (query_out z c s s' o m) H) as ->. cbn in H. injection H as <-.
    rewrite (filter_none _ (query _ _ _ _)); [cbn; lia|]. intros w Hw. apply elem_of_list_In, in_map_iff in Hw as (? & <- & _). done.
  - pose proof (proj2 (query_out z c s s' o m) H) as ->. cbn in H. injection H as <-.
    rewrite (filter_none _ (query _ _ _ _)); [cbn; lia|]. intros w Hw. apply elem_of_list_In, in_map_iff in Hw as (? & <- & _). done.
  - cbn in H. apply reply_timers in H as [(-> & -> & B)|(y & -> & V & H)].
    + cbn [m_timers set_timers]. rewrite filter_len_app. cbn. destruct (String.eqb u x); cbn; lia.
    + rewrite (filter_none _ o); [|].
      * apply process_timers in H as (t & -> & N). rewrite filter_len_app.
        rewrite (filter_none _ t); [cbn; lia|]. intros [ca d|e f'] Ht; [done|by apply N in Ht].
      * intros w Hw. destruct (process_out _ _ _ _ _ _ _ H Hw) as [-> [[T _]|[T _]]]; cbn; apply bool_decide_eq_false; rewrite T; by intros [? ?].
  - cbn in H. destruct (m_timers s !! n) as [t|] eqn:E; [|injection H as <- <-; cbn; lia].
    pose proof (filter_delete (waits_one x) _ _ _ E) as D.
    destruct t as [ca d|e f]; injection H as <- <-.
    + assert (m_timers (crv_timer (set_timers s (delete n (m_timers s))) ca d) = delete n (m_timers s)) as ->.
      { unfold crv_timer. destruct (m_crv _ !! ca); by destruct s. }
      cbn in D |- *. lia.
    + assert (m_timers (set_timers s (delete n (m_timers s))) = delete n (m_timers s)) as -> by by destruct s.
      cbn [waits_one answered_one] in D |- *.
      assert (length (List.filter (accuses_one x) (accuse_timer c (set_timers s (delete n (m_timers s))) m st e f)) <=
              if String.eqb e x then 1 else 0) as A; [|lia].
      unfold accuse_timer, accuse. destruct (has_pom _ m e); [cbn; lia|]. destruct (bool_decide (is_Some _)); cbn [negb andb]; [cbn; lia|].
      cbn. destruct (bool_decide _) eqn:B; cbn; [|lia]. apply bool_decide_eq_true in B as [_ B]. cbn in B. rewrite B, String.eqb_refl. lia.
  - cbn in H. injection H as <- <-. cbn. lia.
  - cbn in H. injection H as <- <-. cbn. lia.
  - cbn in H. injection H as <- <-. cbn. lia.
Qed.

Lemma count_run s l s' o x : mrun s l = Some (s', o) ->
  length (List.filter (accuses_one x) o) + length (List.filter (waits_one x) (m_timers s')) <=
  length (List.filter (waits_one x) (m_timers s)) + length (List.filter (answered_one x) l).
Proof.
  revert s o. induction l as [|e r IH]; intros s o; cbn [Monitor.mrun].
  - intros [= <- <-]. cbn. lia.
  - destruct (mstep s e) as [[s1 o1]|] eqn:S; [|done]. destruct (mrun s1 r) as [[s2 o2]|] eqn:R; [|done].
    intros [= <- <-]. pose proof (count_step _ _ _ _ x S). specialize (IH _ _ R). rewrite filter_len_app.
    cbn. destruct (answered_one x e); cbn; lia.
Qed.

(** ** The accusation verifies *)
Lemma accusation_verifies m st e (cc : cconf P) pk : cc_sign_scheme (mc_crypto c) = "rsa" -> plain_id (cc_self (mc_crypto c)) = true ->
  e <> "" -> cc_sign_scheme cc = "rsa" -> cc_rsa_pubs cc !! cc_self (mc_crypto c) = Some pk ->
  rsa_check pk e (rsa_sign (cc_rsa_sec (mc_crypto c)) e) = true ->
  verify cc (accusation c m st e) = Accept.
Proof.
  intros H1 H2 H3 H4 H5 H6.
  assert (e ++ "" ++ "" = e) as X by (cbn; apply app_nil_r_s).
  assert (cc_sign (mc_crypto c) (e ++ "" ++ "") = Some (mkrsasig (rsa_sign (cc_rsa_sec (mc_crypto c)) e) (cc_self (mc_crypto c)))) as E.
  { unfold cc_sign. rewrite H1, X. done. }
  eapply (honest_init cc (mc_crypto c) pk).
  - by right; right.
  - done.
  - done.
  - exact E.
  - unfold accusation. by rewrite E.
  - done.
  - done.
  - unfold covered. cbn [g_p0 g_p1 g_p2 accusation]. by rewrite X.
Qed.
(** ** What the end of a period writes *)
Lemma period_update l s m : reached z c l s -> exists u s',
  reached z c (l ++ period_end m) s' /\
  written z c monitor_init (l ++ period_end m) = (written z c monitor_init l ++ [u])%list /\
  m_files s' !! ("Period_" ++ itoa (Z.of_nat m - mc_offset c)) = Some (update_marshal u) /\
  u_monitor u = cc_self (mc_crypto c) /\ u_period u = pad2 m /\ NoDup (map get_id (contents u)) /\
  (forall g, g ∈ contents u -> listed u g /\ g_period g = pad2 m /\ received l g) /\
  (forall g, g ∈ u_sths u <-> m_sth s !! get_id g = Some g /\ g_period g = pad2 m /\ m_con s !! mkgid "0" CON_INIT (g_p0 g) = None) /\
  (forall g, g ∈ u_revs u <-> m_rev s !! get_id g = Some g /\ g_period g = pad2 m /\ m_con s !! mkgid "0" CON_INIT (g_p0 g) = None) /\
  (forall g, g ∈ u_cons u <-> m_con_d s !! get_id g = Some g /\ g_period g = pad2 m) /\
  (forall g, g ∈ u_accs u <-> m_acc_d s !! get_id g = Some g /\ g_period g = pad2 m).
Proof.
  intros R. destruct (period_end_writes z c l s m R) as (s' & R' & W & F). exists (update_of c s m), s'.
  pose proof (reached_filed z c l s R) as (_ & _ & _ & F1 & F2 & F3 & F4).
  split_and!; try done.
  - by eapply update_once.
  - intros g G. by eapply update_sound.
  - intros g. rewrite in_sths. split.
    + intros (i & H1 & H2 & H3). destruct (F3 _ _ H1) as [-> _]. done.
    + intros (H1 & H2 & H3). by exists (get_id g).
  - intros g. rewrite in_revs. split.
    + intros (i & H1 & H2 & H3). destruct (F4 _ _ H1) as [-> _]. done.
    + intros (H1 & H2 & H3). by exists (get_id g).
  - intros g. rewrite in_cons. split.
    + intros (i & H1 & H2). destruct (F1 _ _ H1) as [-> _]. done.
    + intros (H1 & H2). by exists (get_id g).
  - intros g. rewrite in_accs. split.
    + intros (i & H1 & H2). destruct (F2 _ _ H1) as [-> _]. done.
    + intros (H1 & H2). by exists (get_id g).
Qed.

Lemma written_end l s m : reached z c l s ->
  written z c monitor_init (l ++ period_end m) = (written z c monitor_init l ++ [update_of c s m])%list.
Proof. intros R. destruct (period_end_writes z c l s m R) as (s' & _ & W & _). exact W. Qed.

Lemma statement_written l1 g l2 s m : reached z c (l1 ++ MGossip g :: l2) s ->
  g_type g ∈ [STH_FULL; REV_FULL] -> g_period g = pad2 m -> undisturbed g l2 ->
  no_zero_con (g_p0 g) (l1 ++ MGossip g :: l2) ->
  exists u, u ∈ written z c monitor_init ((l1 ++ MGossip g :: l2) ++ period_end m) /\ listed u g.
Proof.
  intros R T E U N. exists (update_of c s m). split; [|by eapply statement_published].
  rewrite (written_end _ _ _ R). set_solver.
Qed.

Lemma proof_written l1 g l2 s m : reached z c (l1 ++ MGossip g :: l2) s ->
  g_type g ∈ [CON_INIT; ACC_FULL] -> g_period g = pad2 m -> undisturbed g l2 ->
  (forall x, received l1 x -> get_id x <> get_id g) ->
  exists u, u ∈ written z c monitor_init ((l1 ++ MGossip g :: l2) ++ period_end m) /\ listed u g.
Proof.
  intros R T E U N. exists (update_of c s m). split; [|by eapply proof_published].
  rewrite (written_end _ _ _ R). set_solver.
Qed.

(** With a conflict proof of period "0" nothing of the entity is published. *)
Lemma withheld_written l s m e u g : reached z c l s -> is_Some (m_con s !! mkgid "0" CON_INIT e) ->
  written z c monitor_init (l ++ period_end m) = (written z c monitor_init l ++ [u])%list ->
  g ∈ u_sths u \/ g ∈ u_revs u -> g_p0 g <> e.
Proof.
  intros R I W G. rewrite (written_end _ _ _ R) in W. apply app_inv_head in W. injection W as <-.
  eapply withheld; [exact I| |exact G]. by eapply reached_filed.
Qed.

Lemma accused_cause0 l s o g : mrun monitor_init l = Some (s, o) -> MSend g ∈ o -> g_type g = ACC_INIT ->
  (exists m st, g = accusation c m st (g_p0 g)) /\ exists f r, MReply f (g_p0 g) r ∈ l /\ bad_answer z c f r.
Proof. intros R. apply (accused_cause z c [] monitor_init l s o g); [|done]. intros e f H. by apply elem_of_nil in H. Qed.

Lemma count_accusations l s o x : mrun monitor_init l = Some (s, o) ->
  length (List.filter (accuses_one x) o) <= length (List.filter (answered_one x) l).
Proof. intros R. pose proof (count_run _ _ _ _ x R) as C. cbn in C. lia. Qed.

Lemma not_accused l1 g l2 s f n m st s' o : reached z c (l1 ++ MGossip g :: l2) s ->
  f = Sth \/ f = Rev -> g_type g = init_type f -> g_period g = pad2 m ->
  (forall e, e ∈ l2 -> (forall g', carries e g' -> get_id g' <> get_id g) /\ forall m', e <> MWipe m') ->
  mstep s (MFire n m st) = Some (s', o) -> ~ (m_timers s !! n = Some (TAccuse (g_p0 g) f) /\ accuses o (g_p0 g)).
Proof.
  intros R F T E U S [N (x & X & _)]. destruct (fire_out z c _ _ _ _ _ _ _ S X) as (e' & f' & H & _ & _ & _ & B).
  rewrite N in H. injection H as <- <-.
  assert (m_temp s !! get_id g = Some g) as A.
  { eapply statement_in_temp; [exact R| |exact U]. rewrite T. destruct F as [-> | ->]; set_solver. }
  unfold get_id in A. rewrite E, T in A. by rewrite A in B.
Qed.
End facts.
