(** Counterexamples about monitors, and concrete monitors. *)
From Verif Require Import Bytes Hex Json Types Crypto Verify SpecVerify VerifyFacts Gossiper Bitset Revocation Clock CodecFacts SpecCodec Logger
  Monitor SpecMonitor MonitorFacts MonitorUpdate MonitorMore Toy RefuteCA.
Open Scope string_scope.

Lemma pad2_not_0 m : pad2 m <> "0".
Proof.
  unfold pad2. destruct (Nat.ltb m 10) eqn:E.
  - apply Nat.ltb_lt in E. do 10 (destruct m as [|m]; [done|]). lia.
  - apply Nat.ltb_ge in E. intros H. assert (itoa (Z.of_nat m) = itoa 0) as H' by (rewrite H; done).
    apply itoa_inj in H'. lia.
Qed.

Lemma unpadded_not_pad2 m : m < 10 -> unpadded m <> pad2 m.
Proof. intros H. do 10 (destruct m as [|m]; [done|]). lia. Qed.

Lemma unpadded_pad2 m : 10 <= m -> unpadded m = pad2 m.
Proof. intros H. unfold pad2. rewrite (proj2 (Nat.ltb_ge m 10)) by done. done. Qed.

Section general.
Context {P : prims} (z : gzip) (c : mconf (P:=P)).

(** C42: garbage is stored, and published. *)
Definition garbage (ty period e : string) : gobj := mkobj "" period ty "" [] "" "" "" "" e "" "".
Lemma garbage_stored m e : exists s, reached z c [MGossip (garbage ACC_FULL (pad2 m) e)] s /\
  verify (mc_crypto c) (garbage ACC_FULL (pad2 m) e) = Reject /\
  held s (garbage ACC_FULL (pad2 m) e) /\ listed (update_of c s m) (garbage ACC_FULL (pad2 m) e).
Proof.
  set (g := garbage ACC_FULL (pad2 m) e).
  destruct (survives z c monitor_init [MGossip g]) as (s & o & R).
  { intros f u x H%elem_of_list_singleton. done. }
  exists s. assert (reached z c ([] ++ MGossip g :: []) s) as R' by by exists o. split_and!; try done.
  - assert (at_home s g) as A.
    { eapply (gossip_stored z c monitor_init g s o); [unfold monitor_type; set_solver|].
      cbn in R |- *. destruct (handle_gossip z c monitor_init g) as [s1 o1]. rewrite app_nil_r in R. done. }
    exists (get_id g). destruct A as [[? _]|[[? _]|[[? _]|[[_ A]|[[?|?] _]]]]]; try done. tauto.
  - apply (proof_published z c [] g [] s m R'); try done; [set_solver|by intros ? ?%elem_of_nil|].
    by intros x (e' & He%elem_of_nil & _).
Qed.

Lemma garbage_written m e : exists s u, reached z c [MGossip (garbage ACC_FULL (pad2 m) e)] s /\
  verify (mc_crypto c) (garbage ACC_FULL (pad2 m) e) = Reject /\ held s (garbage ACC_FULL (pad2 m) e) /\
  u ∈ written z c monitor_init ([MGossip (garbage ACC_FULL (pad2 m) e)] ++ period_end m) /\ listed u (garbage ACC_FULL (pad2 m) e).
Proof.
  destruct (garbage_stored m e) as (s & R & V & Hd & L). exists s, (update_of c s m). split_and!; try done.
  rewrite (written_end z c _ _ _ R). set_solver.
Qed.

(** C43: a proof that a period task of another period finds is in no update, before
    or after, also when it is delivered again. *)
Lemma written_received l u g : u ∈ written z c monitor_init l -> g ∈ contents u -> received l g.
Proof.
  assert (forall l0 s0, reached z c l0 s0 -> u ∈ written z c s0 l -> g ∈ contents u -> received (l0 ++ l) g) as X.
  - induction l as [|e r IH]; intros l0 s0 R; cbn; [by intros ?%elem_of_nil|].
    destruct (mstep z c s0 e) as [[s1 o1]|] eqn:S; [|by intros ?%elem_of_nil].
    assert (reached z c (l0 ++ [e]) s1) as R1.
    { destruct R as [o R]. exists (o ++ (o1 ++ []))%list. rewrite mrun_app, R. cbn [Monitor.mrun]. by rewrite S. }
    intros [H|H]%elem_of_app G.
    + destruct e; try (by apply elem_of_nil in H). apply elem_of_list_singleton in H as ->.
      apply received_app. left. eapply held_received; [done|]. unfold contents, generate_update in G.
      cbn [u_sths u_revs u_cons u_accs] in G. rewrite !elem_of_app, !elem_of_snd_list in G. unfold held.
      destruct G as [[i G]|[[i G]|[[i G]|[i G]]]]; exists i; tauto.
    + replace (l0 ++ e :: r)%list with ((l0 ++ [e]) ++ r)%list by by rewrite <- app_assoc. by apply (IH _ s1).
  - intros H G. apply (X [] monitor_init); try done. by exists [].
Qed.

Lemma proof_lost l0 g m l' : g_type g ∈ [CON_INIT; ACC_FULL] -> pad2 m <> g_period g -> ~ received l0 g ->
  (forall e x, e ∈ l' -> carries e x -> get_id x = get_id g -> e = MGossip g) ->
  forall u, u ∈ written z c monitor_init (l0 ++ MGossip g :: MWipe m :: l') -> g ∉ contents u.
Proof.
  intros T W N C u H.
  assert (forall s0 o0, mrun z c monitor_init l0 = Some (s0, o0) ->
    u ∈ written z c monitor_init l0 \/ u ∈ written z c s0 (MGossip g :: MWipe m :: l')) as X.
  { intros s0 o0 R0. rewrite (written_app z c _ _ _ _ _ R0) in H. by apply elem_of_app in H. }
  destruct (mrun z c monitor_init l0) as [[s0 o0]|] eqn:R0.
  - destruct (X _ _ eq_refl) as [H1|H1].
    + intros G. by eapply N, written_received.
    + cbn [written mstep app] in H1. destruct (handle_gossip z c s0 g) as [s1 o1] eqn:E.
      assert (mstep z c s0 (MGossip g) = Some (s1, o1)) as S by (cbn; by rewrite E).
      assert (at_home s1 g) as A. { eapply gossip_stored; [|exact S]. unfold monitor_type. set_solver. }
      assert (all_filed s1) as F1. { eapply filed_step; [|exact S]. eapply reached_filed. by exists o0. }
      assert (all_filed (wipe m s1)) as F2. { eapply (filed_step z c s1 (MWipe m)); [done|]. done. }
      revert H1. apply lost_forever; try done. split_and!.
      * unfold get_object, wipe. cbn. apply elem_of_cons in T as [T|T%elem_of_list_singleton]; rewrite T; cbn;
          destruct A as [[T1 A]|[[T1 A]|[[T1 A]|[[T1 A]|[[T1|T1] A]]]]]; rewrite T in T1; try done; by rewrite A.
      * unfold wipe. cbn. rewrite map_filter_lookup_Some. intros [_ Q]. by apply W.
      * unfold wipe. cbn. rewrite map_filter_lookup_Some. intros [_ Q]. by apply W.
  - (* the process had died before *)
    intros G. apply N. eapply written_received; [|exact G]. revert H. clear -R0.
    generalize (MGossip g :: MWipe m :: l')%list as r. generalize dependent (@monitor_init).
    induction l0 as [|e l0 IH]; intros s R0 r H; [done|]. cbn in R0, H |- *.
    destruct (mstep z c s e) as [[s1 o1]|]; [|done].
    destruct (mrun z c s1 l0) as [[s2 o2]|] eqn:R1; [done|].
    apply elem_of_app in H as [H|H]; apply elem_of_app; [by left|right]. by eapply IH.
Qed.

(** C44: conflict proofs as gossipers make them have no effect. *)
Lemma no_zero_generated e l : (forall g, received l g -> g_type g = CON_INIT ->
    exists m st o1 o2, g = generate_con (pad2 m, st) o1 o2) -> no_zero_con e l.
Proof. intros H g R T _. destruct (H g R T) as (m & st & o1 & o2 & ->). apply pad2_not_0. Qed.

Lemma accuse_timer_out s m st e f : m_acc s !! mkgid (pad2 m) ACC_FULL e = None -> m_con s !! mkgid "0" CON_INIT e = None ->
  m_temp s !! mkgid (pad2 m) (init_type f) e = None -> accuse_timer c s m st e f = [MSend (accusation c m st e)].
Proof.
  intros H1 H2 H3. pose proof (proj2 (has_pom_false s m e) (conj H1 H2)) as H.
  unfold accuse_timer, accuse. rewrite H, H3. done.
Qed.

(** C45: in the first ten minutes of the hour a statement of the current period does not help. *)
Lemma accused_anyway (lc : lconf P) t root size m st : m < 10 ->
  exists s, mrun z c monitor_init [MReply Sth (lc_signer lc) None; MGossip (sth_object lc t root size m); MFire 0 m st] =
    Some (s, [MSend (accusation c m st (lc_signer lc))]) /\
    m_temp s !! mkgid (unpadded m) STH_INIT (lc_signer lc) = Some (sth_object lc t root size m).
Proof.
  intros Hm. set (g := sth_object lc t root size m). set (e := lc_signer lc).
  assert (obj_kind g = KObj (OInit Sth)) as K by done.
  assert (get_id g = mkgid (unpadded m) STH_INIT e) as I by done.
  assert (g_type g = STH_INIT) as T by done. clearbody g.
  set (s1 := set_timers monitor_init [TAccuse e Sth]). set (s2 := store z s1 g).
  assert (m_temp s2 = <[mkgid (unpadded m) STH_INIT e := g]> ∅ /\ m_acc s2 = ∅ /\ m_con s2 = ∅ /\ m_timers s2 = [TAccuse e Sth]) as (X1 & X2 & X3 & X4).
  { unfold s2, store. rewrite K, I. done. }
  assert (mstep z c monitor_init (MReply Sth e None) = Some (s1, [])) as S1 by done.
  assert (mstep z c s1 (MGossip g) = Some (s2, [])) as S2.
  { cbn [mstep]. unfold handle_gossip. rewrite K.
    assert (is_duplicate s1 g = false) as ->; [|done].
    unfold is_duplicate, get_object. rewrite I. cbn. apply bool_decide_eq_false. intros H. by rewrite <- H in T. }
  clearbody s1 s2.
  assert (mstep z c s2 (MFire 0 m st) = Some (set_timers s2 [], [MSend (accusation c m st e)])) as S3.
  { cbn [mstep]. rewrite X4. cbn -[accuse_timer]. rewrite accuse_timer_out; [done|..]; cbn -[lookup].
    - by rewrite X2.
    - by rewrite X3.
    - rewrite X1. rewrite lookup_insert_ne; [apply lookup_empty|]. intros H. injection H as H. by apply (unpadded_not_pad2 m Hm). }
  exists (set_timers s2 []). split.
  - cbn [mrun]. rewrite S1. rewrite S2. rewrite S3. done.
  - cbn. rewrite X1. apply lookup_insert.
Qed.

(** Only the first delta is ever kept. *)
Lemma first_delta_kept g1 g2 m st : g_type g1 = REV_FULL -> g_type g2 = REV_FULL -> g_p0 g1 = g_p0 g2 -> g1 <> g2 ->
  exists s, reached z c [MGossip g1; MFire 0 m st; MGossip g2; MFire 0 m st] s /\ m_timers s = [] /\
    m_crv s !! g_p0 g2 = Some (snd (srh_and_dcrv z g1)).
Proof.
  intros T1 T2 E N.
  assert (obj_kind g1 = KObj (OFull Rev)) as K1 by (unfold obj_kind; by rewrite T1).
  assert (obj_kind g2 = KObj (OFull Rev)) as K2 by (unfold obj_kind; by rewrite T2).
  set (s1 := store z monitor_init g1).
  set (d1 := snd (srh_and_dcrv z g1)). set (d2 := snd (srh_and_dcrv z g2)).
  assert (m_rev s1 = <[get_id g1 := g1]> ∅ /\ m_crv s1 = ∅ /\ m_timers s1 = [TCrv (g_p0 g1) d1]) as (X1 & X2 & X3).
  { unfold s1, store. rewrite K1. done. }
  assert (mstep z c monitor_init (MGossip g1) = Some (s1, [])) as S1.
  { cbn [mstep]. unfold handle_gossip, process_valid. rewrite K1.
    assert (is_duplicate monitor_init g1 = false) as ->; [|done].
    unfold is_duplicate. apply bool_decide_eq_false. unfold get_object. cbn. rewrite T1. cbn. intros H. by rewrite <- H in T1. }
  clearbody s1.
  set (s2 := set_crv (set_timers s1 []) {[g_p0 g1 := d1]}).
  assert (m_rev s2 = <[get_id g1 := g1]> ∅ /\ m_crv s2 = {[g_p0 g1 := d1]} /\ m_timers s2 = []) as (Y1 & Y2 & Y3) by done.
  assert (mstep z c s1 (MFire 0 m st) = Some (s2, [])) as S2.
  { cbn [mstep]. rewrite X3. cbn -[crv_timer]. unfold crv_timer. cbn -[lookup]. rewrite X2. rewrite lookup_empty. done. }
  clearbody s2. set (s3 := store z s2 g2).
  assert (m_crv s3 = {[g_p0 g1 := d1]} /\ m_timers s3 = [TCrv (g_p0 g2) d2]) as (Z2 & Z3).
  { unfold s3, store. destruct s2. cbn in Y2, Y3. rewrite K2. cbn. by rewrite Y2, Y3. }
  assert (mstep z c s2 (MGossip g2) = Some (s3, [])) as S3.
  { cbn [mstep]. unfold handle_gossip, process_valid. rewrite K2.
    assert (is_duplicate s2 g2 = false) as ->; [|done].
    unfold is_duplicate. apply bool_decide_eq_false. unfold get_object. cbn. rewrite T2. cbn. rewrite Y1.
    destruct (decide (get_id g1 = get_id g2)) as [<-|Ne].
    - by rewrite lookup_insert.
    - rewrite lookup_insert_ne by done. rewrite lookup_empty. cbn. intros H. by rewrite <- H in T2. }
  clearbody s3.
  assert (mstep z c s3 (MFire 0 m st) = Some (set_timers s3 [], [])) as S4.
  { cbn [mstep]. rewrite Z3. cbn -[crv_timer]. unfold crv_timer. cbn -[lookup]. rewrite Z2, <- E, lookup_singleton. done. }
  exists (set_timers s3 []). split_and!.
  - exists []. cbn [mrun]. rewrite S1, S2, S3, S4. done.
  - done.
  - cbn -[lookup]. rewrite Z2, E. apply lookup_singleton.
Qed.

Lemma conflicts_ignored l s e : reached z c l s ->
  (forall g, received l g -> g_type g = CON_INIT -> exists m st o1 o2, g = generate_con (pad2 m, st) o1 o2) ->
  forall m, m_acc s !! mkgid (pad2 m) ACC_FULL e = None ->
  (e ∈ mc_loggers c -> asks (query s m Sth (mc_loggers c)) e) /\ (e ∈ mc_cas c -> asks (query s m Rev (mc_cas c)) e).
Proof. intros R G m A. eapply still_queried; [done| |done]. by apply no_zero_generated. Qed.

Lemma published_anyway l1 g l2 s m : reached z c (l1 ++ MGossip g :: l2) s ->
  (forall x, received (l1 ++ MGossip g :: l2) x -> g_type x = CON_INIT -> exists m' st o1 o2, x = generate_con (pad2 m', st) o1 o2) ->
  g_type g ∈ [STH_FULL; REV_FULL] -> g_period g = pad2 m -> undisturbed g l2 ->
  exists u, u ∈ written z c monitor_init ((l1 ++ MGossip g :: l2) ++ period_end m) /\ listed u g.
Proof. intros R G T E U. eapply statement_written; try done. by apply no_zero_generated. Qed.

Lemma asked_both s m e :
  (asks (query s m Sth (mc_loggers c)) e <->
   e ∈ mc_loggers c /\ m_acc s !! mkgid (pad2 m) ACC_FULL e = None /\ m_con s !! mkgid "0" CON_INIT e = None) /\
  (asks (query s m Rev (mc_cas c)) e <->
   e ∈ mc_cas c /\ m_acc s !! mkgid (pad2 m) ACC_FULL e = None /\ m_con s !! mkgid "0" CON_INIT e = None).
Proof. split; apply asked. Qed.

Lemma logger_not_accused (lc : lconf P) t root size l1 l2 s n m st s' o : 10 <= m ->
  let g := sth_object lc t root size m in
  reached z c (l1 ++ MGossip g :: l2) s ->
  (forall e, e ∈ l2 -> (forall g', carries e g' -> get_id g' <> get_id g) /\ forall m', e <> MWipe m') ->
  mstep z c s (MFire n m st) = Some (s', o) -> ~ (m_timers s !! n = Some (TAccuse (lc_signer lc) Sth) /\ accuses o (lc_signer lc)).
Proof.
  intros Hm g R U S. apply (not_accused z c l1 g l2 s Sth n m st s' o); try done; [by left|].
  by apply unpadded_pad2.
Qed.

Lemma good_answer_forwarded s u g : verify (mc_crypto c) g = Accept -> g_type g = STH_INIT -> g_signer g ∈ mc_all_loggers c ->
  mstep z c s (MReply Sth u (Some g)) = Some (s, [MSend g]).
Proof.
  intros V T I. cbn. rewrite V. unfold process_valid, obj_kind. rewrite T. cbn.
  assert (is_logger c (g_signer g) = true) as ->; [|done].
  unfold is_logger. apply existsb_exists. exists (g_signer g). split; [by apply elem_of_list_In|apply String.eqb_refl].
Qed.

(** Where the revocation vectors come from. *)
Definition crv_caused (l : list mevent) (s : mst) : Prop :=
  (forall ca v, m_crv s !! ca = Some v -> exists g, received l g /\ g_type g = REV_FULL /\ g_p0 g = ca /\ v = snd (srh_and_dcrv z g)) /\
  (forall ca v, TCrv ca v ∈ m_timers s -> exists g, received l g /\ g_type g = REV_FULL /\ g_p0 g = ca /\ v = snd (srh_and_dcrv z g)).

Lemma store_crv s g : m_crv (store z s g) = m_crv s /\
  (m_timers (store z s g) = m_timers s \/
   g_type g = REV_FULL /\ m_timers (store z s g) = (m_timers s ++ [TCrv (g_p0 g) (snd (srh_and_dcrv z g))])%list).
Proof.
  pose proof (kind_cases (g_type g)) as K. destruct s. unfold store, obj_kind.
  destruct (kind_of (g_type g)) as [[[]| |[]]|[]|]; cbn; auto.
Qed.

Lemma received_snoc l e g : received l g -> received (l ++ [e]) g.
Proof. intros R. apply received_app. by left. Qed.
Lemma received_last l e g : carries e g -> received (l ++ [e]) g.
Proof. intros R. apply received_app. right. exists e. split; [set_solver|done]. Qed.

Lemma crv_caused_step l s e s' o : crv_caused l s -> mstep z c s e = Some (s', o) -> crv_caused (l ++ [e]) s'.
Proof.
  intros [C1 C2] S.
  assert (forall s1, m_crv s1 = m_crv s -> (forall ca v, TCrv ca v ∈ m_timers s1 -> TCrv ca v ∈ m_timers s) -> crv_caused (l ++ [e]) s1) as K.
  { intros s1 E1 E2. split.
    - intros ca v H. rewrite E1 in H. destruct (C1 _ _ H) as (g & R & X). exists g. split; [by apply received_snoc|done].
    - intros ca v H. destruct (C2 _ _ (E2 _ _ H)) as (g & R & X). exists g. split; [by apply received_snoc|done]. }
  assert (forall g, carries e g -> crv_caused (l ++ [e]) (store z s g)) as KS.
  { intros g G. destruct (store_crv s g) as [E1 [E2|[T E2]]].
    - apply K; [done|]. intros ca v. by rewrite E2.
    - split.
      + intros ca v H. rewrite E1 in H. destruct (C1 _ _ H) as (x & R & X). exists x. split; [by apply received_snoc|done].
      + intros ca v H. rewrite E2 in H. apply elem_of_app in H as [H|H].
        * destruct (C2 _ _ H) as (x & R & X). exists x. split; [by apply received_snoc|done].
        * apply elem_of_list_singleton in H. injection H as -> ->. exists g. split_and!; try done. by apply received_last. }
  destruct e as [y|m|m|f u r|n m st| |m|m]; cbn in S.
  - injection S as S. unfold handle_gossip in S. destruct (is_duplicate s y); [injection S as <- <-; by apply K|].
    assert (carries (MGossip y) y) as G by by left.
    destruct (obj_kind y) as [[[]| |[]]|[]|];
      try (apply process_cases in S as [-> |(-> & _)]; [by apply K|by apply KS]); injection S as <- <-; by apply KS.
  - injection S as <- <-. by apply K.
  - injection S as <- <-. by apply K.
  - apply reply_timers in S as [(-> & _ & _)|(g & -> & _ & S)].
    + apply K; [done|]. cbn. intros ca v [H|H]%elem_of_app; [done|]. by apply elem_of_list_singleton in H.
    + apply process_cases in S as [-> |(-> & _)]; [by apply K|]. apply KS. right. eauto.
  - destruct (m_timers s !! n) as [t|] eqn:T; [|injection S as <- <-; by apply K].
    injection S as S. destruct t as [ca d|x f]; cbn in S.
    + injection S as <- <-. unfold crv_timer. cbn -[lookup]. destruct (m_crv s !! ca) eqn:V.
      * apply K; [done|]. cbn. intros ca' v' H. rewrite delete_take_drop, elem_of_app in H.
        destruct H as [H|H]; [apply elem_of_take in H as (k & H & _); by eapply elem_of_list_lookup_2|].
        apply elem_of_list_lookup in H as [k H]. rewrite lookup_drop in H. by eapply elem_of_list_lookup_2.
      * split; cbn -[lookup].
        -- intros ca' v [[<- <-]|[_ H]]%lookup_insert_Some.
           ++ apply elem_of_list_lookup_2 in T. destruct (C2 _ _ T) as (x & R & X). exists x. split; [by apply received_snoc|done].
           ++ destruct (C1 _ _ H) as (x & R & X). exists x. split; [by apply received_snoc|done].
        -- intros ca' v' H. rewrite delete_take_drop, elem_of_app in H.
           assert (TCrv ca' v' ∈ m_timers s) as H'.
           { destruct H as [H|H]; [apply elem_of_take in H as (k & H & _); by eapply elem_of_list_lookup_2|].
             apply elem_of_list_lookup in H as [k H]. rewrite lookup_drop in H. by eapply elem_of_list_lookup_2. }
           destruct (C2 _ _ H') as (x & R & X). exists x. split; [by apply received_snoc|done].
    + injection S as <- <-. apply K; [done|]. cbn. intros ca' v' H. rewrite delete_take_drop, elem_of_app in H.
      destruct H as [H|H]; [apply elem_of_take in H as (k & H & _); by eapply elem_of_list_lookup_2|].
      apply elem_of_list_lookup in H as [k H]. rewrite lookup_drop in H. by eapply elem_of_list_lookup_2.
  - injection S as <- <-. by apply K.
  - injection S as <- <-. by apply K.
  - injection S as <- <-. by apply K.
Qed.

Lemma crv_caused_run l0 s0 l s o : crv_caused l0 s0 -> mrun z c s0 l = Some (s, o) -> crv_caused (l0 ++ l) s.
Proof.
  revert l0 s0 o. induction l as [|e l IH]; intros l0 s0 o C R; cbn in R.
  - injection R as <- <-. by rewrite app_nil_r.
  - destruct (mstep z c s0 e) as [[s1 o1]|] eqn:S; [|done].
    destruct (mrun z c s1 l) as [[s2 o2]|] eqn:R'; [|done]. injection R as <- <-.
    replace (l0 ++ e :: l)%list with ((l0 ++ [e]) ++ l)%list by by rewrite <- app_assoc.
    eapply IH; [|exact R']. by eapply crv_caused_step.
Qed.

Lemma crv_from l s ca v : reached z c l s -> m_crv s !! ca = Some v ->
  exists g, received l g /\ g_type g = REV_FULL /\ g_p0 g = ca /\ v = snd (srh_and_dcrv z g).
Proof.
  intros [o R] H. apply (crv_caused_run [] monitor_init l s o) in R as [C _]; [by apply C|].
  split; [intros ? ? X; cbn in X; by rewrite lookup_empty in X|]. cbn. by intros ? ? ?%elem_of_nil.
Qed.
End general.

(** ** A concrete monitor *)
Definition toy_mcc : cconf toy := mkcconf toy 2 3 4 "rsa" "bls" "m1" (<["m1" := "km"]> toy_rsa) "km" toy_bls 0%Z.
Definition toy_mc : mconf (P:=toy) :=
  mkmconf toy_mcc ["localhost:9100"; "localhost:9101"] ["localhost:9000"] ["localhost:9100"; "localhost:9101"] ["localhost:9000"] 0.

(** A statement signed by the gossipers g1 and g2. *)
Definition toy_full (ty period p0 p1 p2 : string) : gobj :=
  mkobj CTNG_APPLICATION period ty "" ["g1"; "g2"]
        (thrsig_string (P:=toy) (mkthr (P:=toy) ["g1"; "g2"] (11 * toy_hash (p0 ++ p1 ++ p2))%Z)) "" "t" "bls" p0 p1 p2.

(** Logger 9100 has signed two different heads; the gossiper's proof of that. *)
Definition toy_con : gobj :=
  generate_con ("07", "t") (toy_init STH_INIT "7" "k1" "localhost:9100" "a" "") (toy_init STH_INIT "7" "k1" "localhost:9100" "b" "").
Definition toy_sth_full : gobj := toy_full STH_FULL "07" "localhost:9100" "a" "".
Definition toy_acc_full : gobj := toy_full ACC_FULL "07" "localhost:9100" "" "".

Lemma toy_objects_verify : verify toy_mcc toy_con = Accept /\ verify toy_mcc toy_sth_full = Accept /\ verify toy_mcc toy_acc_full = Accept.
Proof. vm_compute. done. Qed.

Lemma toy_identities z : identities_known z toy_mc Sth (toy_init STH_INIT "7" "k1" "localhost:9100" "a" "").
Proof.
  split; [|done]. intros str x [-> | ->].
  - vm_compute (rsasig_from_string _). intros [= <-]. eexists. vm_compute. reflexivity.
  - vm_compute (rsasig_from_string _). done.
Qed.

(** The state a history leads to. *)
Definition run_to (l : list mevent) : mst := match mrun toy_z toy_mc monitor_init l with Some (s, _) => s | None => monitor_init end.
Definition runs (l : list mevent) : bool := match mrun toy_z toy_mc monitor_init l with Some _ => true | None => false end.
Lemma run_to_reached l : runs l = true -> reached toy_z toy_mc l (run_to l).
Proof. unfold runs, run_to, reached. destruct (mrun toy_z toy_mc monitor_init l) as [[s o]|]; [by exists o|done]. Qed.

Lemma acc_held s g : bool_decide (m_acc s !! get_id g = Some g) = true -> held s g.
Proof. intros H%bool_decide_eq_true. exists (get_id g). tauto. Qed.
Lemma con_against s e p : bool_decide (is_Some (m_con s !! mkgid p CON_INIT e)) = true -> proof_against s e.
Proof. intros H%bool_decide_eq_true. right. by exists p. Qed.
Lemma is_some_true {A} (x : option A) : (match x with Some _ => true | None => false end) = true -> is_Some x.
Proof. destruct x; [by eexists|done]. Qed.
