(** The whole system: an entity against which no evidence is shown is never convicted. *)
From Verif Require Import Bytes Hex Json Types Crypto Verify Bitset Cert CertPool CTngExt Revocation Prog Gossiper Network Overlap System SpecVerify SpecGossiper SpecSystem ProgFacts GstFacts CodecFacts CryptoFacts VerifyFacts JsonFacts WireFacts Base64 GWalk GossiperInv GossiperSeq GossiperEvidence Duty SystemNode.
From Verif Require Logger CA Monitor Client MonitorMore.
From Coq Require Import Lia.
Open Scope string_scope.

Lemma wrun_app {P : prims} z x (S : sysconf P) W l1 l2 : wrun z x S W (l1 ++ l2)%list = wrun z x S (wrun z x S W l1) l2.
Proof. apply fold_left_app. Qed.

Lemma in_delete {A} (i : nat) (l : list A) y : y ∈ delete i l -> y ∈ l.
Proof. rewrite delete_take_drop. intros [H|H]%elem_of_app; [by eapply elem_of_take in H as (? & ? & _); eapply elem_of_list_lookup_2|].
  apply elem_of_list_lookup in H as (j & H). rewrite lookup_drop in H. by eapply elem_of_list_lookup_2. Qed.

Lemma note_decode_p0 n g : gobj_decode (note_marshal n) = Some g -> g_p0 g = "".
Proof.
  unfold gobj_decode, note_marshal. rewrite decode_json_print0.
  - destruct n as [a b c d e]. unfold note_json. cbn [n_sender n_period n_type n_entity n_hash].
    generalize (b64_encode e). intros t. by intros [= <-].
  - unfold note_json. repeat constructor.
Qed.

(** ** Monitors *)
Section monitor.
Context (e : string) (Dl : gobj -> Prop).
Notation NH := (NH e Dl).

Definition clear_upd (u : Monitor.update) : Prop := forall g, g ∈ Monitor.u_cons u \/ g ∈ Monitor.u_accs u -> g_p0 g <> e.

Definition clear_tbl (m : gmap gid gobj) : Prop := forall i g, m !! i = Some g -> g_p0 g <> e.

Definition MI (s : Monitor.mst) : Prop :=
  clear_tbl (Monitor.m_con s) /\ clear_tbl (Monitor.m_acc s) /\ clear_tbl (Monitor.m_con_d s) /\ clear_tbl (Monitor.m_acc_d s) /\
  (forall f, Monitor.TAccuse e f ∉ Monitor.m_timers s) /\
  (forall d t u, Monitor.m_files s !! d = Some t -> Monitor.update_unmarshal t = Some u -> clear_upd u).

Lemma clear_insert m i g : clear_tbl m -> g_p0 g <> e -> clear_tbl (<[i := g]> m).
Proof. intros H Hg j o. rewrite lookup_insert_Some. intros [[_ <-]|[_ Hj]]; eauto. Qed.

Lemma MI_init : MI Monitor.monitor_init.
Proof. unfold MI, clear_tbl. cbn. split_and!; intros; try (by rewrite lookup_empty in *); try set_solver. Qed.

Context {P : prims} (z : gzip) (c : @Monitor.mconf P).

Lemma MI_timers s l : MI s -> (forall f, Monitor.TAccuse e f ∉ l) -> MI (Monitor.set_timers s l).
Proof. intros (A1 & A2 & A3 & A4 & A5 & A6) Hl. by split_and!. Qed.

Lemma MI_store s g : MI s -> NH g -> MI (Monitor.store z s g).
Proof.
  intros (A1 & A2 & A3 & A4 & A5 & A6) Hg. destruct s. cbn in *. unfold Monitor.store.
  destruct (obj_kind g) as [[f| |f]|f|] eqn:Ek; [by split_and!| |destruct f|by split_and!|by split_and!].
  - assert (g_p0 g <> e) by (intros Hp; specialize (Hg Hp); by rewrite Ek in Hg). split_and!; cbn; auto; by apply clear_insert.
  - by split_and!.
  - split_and!; cbn; auto. intros f. rewrite elem_of_app, elem_of_list_singleton. intros [Hf|Hf]; [by eapply A5|done].
  - assert (g_p0 g <> e) by (intros Hp; specialize (Hg Hp); by rewrite Ek in Hg). split_and!; cbn; auto; by apply clear_insert.
Qed.

Lemma MI_valid s g : MI s -> NH g -> MI (fst (Monitor.process_valid z c s g)) /\
  forall h, Monitor.MSend h ∈ snd (Monitor.process_valid z c s g) -> NH h.
Proof.
  intros H Hg. unfold Monitor.process_valid. destruct (obj_kind g) as [[[]| |f]|f|] eqn:Ek; cbn [fst snd];
    (split; [first [done|by apply MI_store]|]); intros h; try (intros Hh; by apply elem_of_nil in Hh).
  - destruct (Monitor.is_logger c _); [|intros Hh; by apply elem_of_nil in Hh]. rewrite elem_of_list_singleton. intros [= ->]. done.
  - destruct (Monitor.is_authority c _); [|intros Hh; by apply elem_of_nil in Hh]. rewrite elem_of_list_singleton. intros [= ->]. done.
Qed.

Lemma MI_reply s f url r s' o : MI s -> (forall g, r = Some g -> NH g) ->
  (url = e -> exists g, r = Some g /\ verify (Monitor.mc_crypto c) g = Accept /\ (f = Rev -> Monitor.check_rev z c s g = Accept)) ->
  Monitor.handle_reply z c s f url r = Some (s', o) -> MI s' /\ forall h, Monitor.MSend h ∈ o -> NH h.
Proof.
  intros H Hr Hu.
  assert (url <> e -> MI (Monitor.wait_then_accuse s url f)) as Hw.
  { intros Hne. apply MI_timers; [done|]. intros f'. rewrite elem_of_app, elem_of_list_singleton. intros [Hf|[= Hf]]; [|by subst].
    by apply H in Hf. }
  assert (forall g, r = Some g -> Some (Monitor.process_valid z c s g) = Some (s', o) -> MI s' /\ forall h, Monitor.MSend h ∈ o -> NH h) as Hp.
  { intros g Hg [= E]. pose proof (MI_valid s g H (Hr g Hg)) as Hv. by rewrite E in Hv. }
  destruct (decide (url = e)) as [E|Hne].
  - destruct (Hu E) as (g & -> & Hv & Hc). cbn [Monitor.handle_reply]. rewrite Hv. destruct f; [by apply Hp| |by apply Hp].
    rewrite Hc by done. by apply Hp.
  - specialize (Hw Hne). unfold Monitor.handle_reply. destruct r as [g|].
    2: { intros [= <- <-]. split; [done|]. intros h Hh. by apply elem_of_nil in Hh. }
    destruct (verify _ g).
    + destruct f; [by apply Hp| |by apply Hp].
      destruct (Monitor.check_rev z c s g); [by apply Hp| |done].
      intros [= <- <-]. split; [done|]. intros h Hh. by apply elem_of_nil in Hh.
    + intros [= <- <-]. split; [done|]. intros h Hh. by apply elem_of_nil in Hh.
    + done.
Qed.

Lemma MI_step s ev s' o : MI s ->
  (forall g, ev = Monitor.MGossip g -> NH g) ->
  (forall f url r, ev = Monitor.MReply f url r -> (forall g, r = Some g -> NH g) /\
     (url = e -> exists g, r = Some g /\ verify (Monitor.mc_crypto c) g = Accept /\ (f = Rev -> Monitor.check_rev z c s g = Accept))) ->
  Monitor.mstep z c s ev = Some (s', o) -> MI s' /\ forall h, Monitor.MSend h ∈ o -> NH h.
Proof.
  intros H Hg Hr. destruct ev as [g|m|m|f url r|n m stamp| |m|m]; cbn.
  - specialize (Hg g eq_refl). intros [= E]. unfold Monitor.handle_gossip in E. destruct (Monitor.is_duplicate s g).
    { injection E as <- <-. split; [done|]. intros h Hh. by apply elem_of_nil in Hh. }
    pose proof (MI_valid s g H Hg) as Hv.
    destruct (obj_kind g) as [[[]| |f]|f|] eqn:Ek;
      try (rewrite E in Hv; exact Hv); injection E as <- <-; (split; [by apply MI_store|]); intros h Hh; by apply elem_of_nil in Hh.
  - intros [= <- <-]. split; [done|]. intros h Hh. unfold Monitor.query in Hh. by apply elem_of_list_fmap in Hh as (? & ? & _).
  - intros [= <- <-]. split; [done|]. intros h Hh. unfold Monitor.query in Hh. by apply elem_of_list_fmap in Hh as (? & ? & _).
  - destruct (Hr f url r eq_refl). by apply MI_reply.
  - destruct (Monitor.m_timers s !! n) as [t|] eqn:Et.
    2: { intros [= <- <-]. split; [done|]. intros h Hh. by apply elem_of_nil in Hh. }
    assert (MI (Monitor.set_timers s (delete n (Monitor.m_timers s)))) as H1.
    { apply MI_timers; [done|]. intros f Hf%in_delete. by apply H in Hf. }
    destruct t as [ca d|e' f]; cbn; intros [= <- <-].
    + split; [|intros h Hh; by apply elem_of_nil in Hh]. unfold Monitor.crv_timer. destruct (Monitor.m_crv _ !! ca); [done|exact H1].
    + split; [done|]. intros h. unfold Monitor.accuse_timer, Monitor.accuse.
      assert (e' <> e) as Hne. { intros ->. apply elem_of_list_lookup_2 in Et. by apply H in Et. }
      destruct (_ && _); [|intros Hh; by apply elem_of_nil in Hh].
      destruct (Monitor.has_pom _ _ _); [intros Hh; by apply elem_of_nil in Hh|].
      rewrite elem_of_list_singleton. intros [= ->] Hp. done.
  - intros [= <- <-]. split; [|intros h Hh; by apply elem_of_nil in Hh]. exact H.
  - intros [= <- <-]. split; [|intros h Hh; by apply elem_of_nil in Hh]. destruct H as (A1 & A2 & A3 & A4 & A5 & A6).
    split_and!; auto; cbn; intros i g Hi; apply map_filter_lookup_Some in Hi as [Hi _]; eauto.
  - intros [= <- <-]. split; [|intros h Hh; by apply elem_of_nil in Hh]. destruct H as (A1 & A2 & A3 & A4 & A5 & A6).
    split_and!; auto. intros d t u. unfold Monitor.publish, Monitor.set_files. cbn [Monitor.m_files].
    rewrite lookup_insert_Some. intros [[_ <-]|[_ Hd]]; [|by eapply A6].
    rewrite MonitorMore.update_roundtrip. intros [= <-] g. cbn.
    intros [Hin|Hin]; apply elem_of_list_fmap in Hin as ([i o] & -> & Hin); apply elem_of_map_to_list in Hin; eauto.
Qed.
End monitor.

(** ** Clients *)
Lemma take_poms_clear {P : prims} (c : cconf P) e flag m l : m !! e = None -> (forall g, g ∈ l -> g_p0 g <> e) ->
  (Client.take_poms c flag m l).1 !! e = None.
Proof.
  revert m. induction l as [|g l IH]; intros m Hm Hl; [done|]. cbn. destruct (Client.checked c flag g); [|done..].
  apply IH; [|intros h Hh; apply Hl; by right]. rewrite lookup_insert_ne; [done|]. apply Hl. by left.
Qed.

Lemma client_clear {P : prims} (c : cconf P) z e s flag u s' o : Client.cl_pom s !! e = None -> clear_upd e u ->
  Client.handle_update z c s flag u = (s', o) -> Client.cl_pom s' !! e = None.
Proof.
  intros Hs Hu. unfold Client.handle_update. destruct (Client.cl_crv_lock s); [by intros [= <- _]|].
  destruct (Client.take_revs z c flag _ _) as [crv []]; [|by intros [= <- _]..].
  destruct (Client.cl_sth_lock s); [by intros [= <- _]|].
  destruct (Client.take_sths c flag _ _) as [sth []]; [|by intros [= <- _]..].
  destruct (Client.cl_pom_lock s); [by intros [= <- _]|].
  pose proof (take_poms_clear c e flag (Client.cl_pom s) (Monitor.u_accs u ++ Monitor.u_cons u) Hs) as Hc.
  destruct (Client.take_poms c flag _ _) as [pom v]. cbn in Hc.
  assert (pom !! e = None) as Hp. { apply Hc. intros g [Hg|Hg]%elem_of_app; apply Hu; auto. }
  destruct v; by intros [= <- _].
Qed.

(** ** The whole system *)
Section world.
Context {P : prims} (z : gzip) (x : CA.x509lib) (S : sysconf P).
Context (e : string) (Dl : gobj -> Prop).
Context (He : no_evidence e Dl) (Hne : e <> "").
Context (Hsigner : forall g, Dl g -> g_p0 g = e -> statement g -> g_signer g <> "").
Notation NH := (NH e Dl).
Notation cfgs := (sy_gossipers S).

Lemma Dl_NH g : Dl g -> NH g.
Proof using He.
  intros Hg Hp. destruct (proj1 He g Hg Hp) as (N1 & N2 & N3 & N4). destruct (obj_kind g) as [[[]| |[]]|[]|] eqn:Ek; try done;
    (apply obj_kind_obj in Ek || apply obj_kind_frag in Ek); done.
Qed.

Definition net_ok (N : onet) : Prop :=
  (forall u y, on_nodes N !! u = Some y -> exists c, cfgs !! u = Some c /\ node_ok e Dl c y) /\
  (forall p g, p ∈ on_flight N -> po_msg p = MObj g -> NH g).

Definition mail_ok (y : mail) : Prop := match y with ToGossip _ g | ToMon _ g => NH g | _ => True end.

Definition WI (W : world) : Prop :=
  net_ok (w_net W) /\ (forall y, y ∈ w_mail W -> mail_ok y) /\
  (forall mon s, w_mons W !! mon = Some s -> MI e s) /\
  (forall cl s, w_clients W !! cl = Some s -> Client.cl_pom s !! e = None).

Lemma node_trace (c : gconf P) y : node_ok e Dl c y -> Forall (good_ev e Dl) (t_trace (p_st y)).
Proof using. clear. intros (H & _). apply H. Qed.

Lemma posts_good tr p g : Forall (good_ev e Dl) tr -> p ∈ posts tr -> po_msg p = MObj g -> NH g.
Proof using.
  clear. intros Ht Hp Hm. unfold posts in Hp. apply elem_of_list_omap in Hp as (v & Hv & E).
  rewrite Forall_forall in Ht. specialize (Ht v Hv). destruct v; try done. injection E as <-. cbn in Hm. subst m. exact Ht.
Qed.

Lemma reports_good tr y : Forall (good_ev e Dl) tr -> y ∈ reports tr -> mail_ok y.
Proof using.
  clear. intros Ht Hp. unfold reports in Hp. apply elem_of_list_omap in Hp as (v & Hv & E).
  rewrite Forall_forall in Ht. specialize (Ht v Hv). destruct v; try done. injection E as <-. exact Ht.
Qed.

Lemma net_act N u f : net_ok N -> (forall c y, cfgs !! u = Some c -> node_ok e Dl c y -> node_ok e Dl c (f c y)) -> net_ok (oact cfgs N u f).
Proof using.
  intros [H1 H2] Hf. unfold oact. destruct (cfgs !! u) as [c|] eqn:Ec; [|done]. destruct (on_nodes N !! u) as [y|] eqn:Ey; [|done].
  destruct (H1 u y Ey) as (c' & Ec' & Hy). rewrite Ec in Ec'. injection Ec' as <-. specialize (Hf c y eq_refl Hy).
  split; cbn.
  - intros v yv. rewrite lookup_insert_Some. intros [[<- <-]|[_ Hv]]; [by exists c|by apply H1].
  - intros p g [Hp|Hp]%elem_of_app Hm; [by eapply H2|]. eapply posts_good; [|exact Hp|exact Hm]. apply Forall_drop. by eapply node_trace.
Qed.

Lemma net_step_ok N ev : net_ok N -> (forall u g, ev = OHand u g -> NH g) -> net_ok (onet_step cfgs N ev).
Proof using He Hne Hsigner.
  intros HN Hev. destruct ev as [u g|i|u i|u i|u p sec st]; cbn [onet_step].
  - apply net_act; [done|]. intros c y _ Hy. apply node_add; auto. cbn. constructor. by eapply Hev.
  - destruct (on_flight N !! i) as [p|] eqn:Ep; [|done].
    assert (net_ok (mkonet (on_nodes N) (delete i (on_flight N)))) as HN'.
    { split; [apply HN|]. cbn. intros q g Hq%in_delete. by apply HN. }
    destruct (arrival p) as [ev|] eqn:Ea; [|done]. apply net_act; [done|]. intros c y _ Hy. apply node_add; auto.
    unfold arrival in Ea. destruct (bool_decide _).
    + destruct (po_msg p) as [g|n] eqn:Em.
      * rewrite gobj_roundtrip in Ea. injection Ea as <-. cbn. constructor. eapply HN; [by eapply elem_of_list_lookup_2|done].
      * destruct (gobj_decode (note_marshal n)) as [g|] eqn:Ed; [|done]. injection Ea as <-. cbn. constructor.
        intros Hp. rewrite (note_decode_p0 n g Ed) in Hp. done.
    + destruct (String.eqb _ _); [destruct (note_decode _); [|done]; injection Ea as <-; constructor|].
      destruct (String.eqb _ _); [destruct (note_decode _); [|done]; injection Ea as <-; constructor|]. done.
  - apply net_act; [done|]. intros c y _ Hy. by apply node_thread.
  - apply net_act; [done|]. intros c y _ Hy. by apply node_start.
  - apply net_act; [done|]. intros c y _ Hy. by apply node_tick.
Qed.

Lemma period_ok N u : net_ok N -> net_ok (oact cfgs N u (λ _, thread_add periodic)).
Proof using He Hne Hsigner. intros HN. apply net_act; [done|]. intros c y _ Hy. apply node_add; auto. constructor. Qed.

Lemma WI_send W ms : WI W -> (forall y, y ∈ ms -> mail_ok y) -> WI (send W ms).
Proof using. clear. intros (A1 & A2 & A3 & A4) Hm. split_and!; auto. cbn. intros y [Hy|Hy]%elem_of_app; auto. Qed.

Lemma with_net_ok W N : WI W -> net_ok N -> WI (with_net W N).
Proof using.
  intros (A1 & A2 & A3 & A4) HN. unfold with_net. apply WI_send; [by split_and!|].
  intros y Hy. unfold new_reports in Hy. apply elem_of_list_In, in_concat in Hy as (l & Hl & Hy).
  apply elem_of_list_In in Hl, Hy. apply elem_of_list_fmap in Hl as ([u yu] & -> & Hu). apply elem_of_map_to_list in Hu. cbn in Hy.
  destruct (on_nodes (w_net W) !! u) as [y0|]; [|by apply elem_of_nil in Hy].
  destruct HN as [HN _]. destruct (HN u yu Hu) as (c & _ & Hc). eapply reports_good; [|exact Hy]. apply Forall_drop. by eapply node_trace.
Qed.

Lemma mon_event_ok W mon ev : WI W ->
  (forall g, ev = Monitor.MGossip g -> NH g) ->
  (forall f url r, ev = Monitor.MReply f url r -> (forall g, r = Some g -> NH g) /\
     forall c u s, sy_monitors S !! mon = Some (c, u) -> w_mons W !! mon = Some s ->
       url = e -> exists g, r = Some g /\ verify (Monitor.mc_crypto c) g = Accept /\ (f = Rev -> Monitor.check_rev z c s g = Accept)) ->
  WI (mon_event z S W mon ev).
Proof using.
  intros HW Hg Hr. unfold mon_event. destruct (sy_monitors S !! mon) as [[c u]|] eqn:Ec; [|done].
  destruct (w_mons W !! mon) as [s|] eqn:Es; [|done]. pose proof HW as (A1 & A2 & A3 & A4).
  destruct (Monitor.mstep z c s ev) as [[s' o]|] eqn:Em.
  - destruct (MI_step e Dl z c s ev s' o) as [B1 B2]; auto; [by eapply A3|intros f url r E; destruct (Hr f url r E); split; eauto|].
    apply WI_send.
    + split_and!; auto. cbn. intros m' t. rewrite lookup_insert_Some. intros [[_ <-]|[_ Ht]]; eauto.
    + intros y Hy. apply elem_of_list_fmap in Hy as (w & -> & Hw). destruct w as [g|f url]; [|done]. by apply B2.
  - split_and!; auto. cbn. intros m' t. rewrite lookup_delete_Some. intros [_ Ht]. eauto.
Qed.

Lemma ask_ok W mon f url m : WI W -> WI (ask W mon f url m).
Proof using.
  intros HW. assert (forall W' r, WI W' -> WI (send W' [Response mon f url r])) as Hs.
  { intros W' r HW'. apply WI_send; [done|]. intros y. by rewrite elem_of_list_singleton; intros ->. }
  unfold ask. destruct f; [|destruct (w_cas W !! url) as [s|]|done].
  - destruct (w_loggers W !! url) as [s|]; [destruct (Logger.request_sth s m)|]; by apply Hs.
  - destruct (CA.request_rev s m). by apply Hs.
  - by apply Hs.
Qed.

(** One event, in a world where the rest of the story is as required. *)
Lemma WI_step W ev : WI W ->
  (forall y, ev = EInject y -> mail_ok y) ->
  (forall p g, ev = EPost p -> po_msg p = MObj g -> NH g) ->
  (forall i m mon f url g, ev = EDeliver i m -> w_mail W !! i = Some (Response mon f url (Some g)) -> NH g) ->
  (forall i m mon f r c u s, ev = EDeliver i m -> w_mail W !! i = Some (Response mon f e r) ->
     sy_monitors S !! mon = Some (c, u) -> w_mons W !! mon = Some s ->
     exists g, r = Some g /\ verify (Monitor.mc_crypto c) g = Accept /\ (f = Rev -> Monitor.check_rev z c s g = Accept)) ->
  WI (wstep z x S W ev).
Proof using He Hne Hsigner.
  intros HW Hinj Hpost Hgood Hfine. pose proof HW as (A1 & A2 & A3 & A4).
  destruct ev as [i m|i|y|p|ev|u|l t t1 t2|l|ca ds|ca n|ca rs m|mon ev|cl mon dir flag]; cbn [wstep].
  - destruct (w_mail W !! i) as [y|] eqn:Ey; [|done].
    assert (WI (set_mail W (delete i (w_mail W)))) as HW1.
    { split_and!; auto. cbn. intros y' Hy'%in_delete. auto. }
    assert (mail_ok y) as Hy by (apply A2; by eapply elem_of_list_lookup_2).
    destruct y as [l crt|ca g|ca p|mon f url|mon f url r|u g|mon g]; cbn [receive].
    + destruct (_ !! l); [|done]. exact HW1.
    + destruct (_ !! ca) as [[? ?]|]; [|done]. destruct (_ !! ca); [|done]. exact HW1.
    + destruct (_ !! ca); [|done]. exact HW1.
    + by apply ask_ok.
    + apply mon_event_ok; [done|done|]. intros f' url' r' [= <- <- <-]. split.
      * intros g ->. by eapply Hgood.
      * intros c u s Hc Hs ->. by eapply Hfine.
    + apply with_net_ok; [done|]. apply net_step_ok; [apply HW1|]. by intros ? ? [= <- <-].
    + apply mon_event_ok; [done| |done]. by intros ? [= <-].
  - destruct (w_mail W !! i) as [y|] eqn:Ey; [|done]. split_and!; auto. cbn.
    intros y' [Hy'%in_delete|Hy']%elem_of_app; [auto|]. destruct y; cbn in Hy'; try (by apply elem_of_nil in Hy');
      apply elem_of_list_singleton in Hy' as ->; done.
  - apply WI_send; [done|]. intros y'. rewrite elem_of_list_singleton. intros ->. by apply Hinj.
  - split_and!; auto. split; [apply A1|]. cbn. intros q g [Hq|Hq]%elem_of_app Hm; [by eapply A1|].
    apply elem_of_list_singleton in Hq as ->. by eapply Hpost.
  - destruct (inner_event ev) eqn:Ei; [|done]. apply with_net_ok; [done|]. apply net_step_ok; [done|]. intros u g ->. done.
  - apply with_net_ok; [done|]. by apply period_ok.
  - destruct (sy_loggers S !! l) as [c|]; [|done]. destruct (w_loggers W !! l) as [s|]; [|done].
    destruct (Logger.publish _ _ _ _ _ _) as [[s' ms] ok]. apply WI_send; [done|]. intros y Hy.
    apply elem_of_list_fmap in Hy as ([] & -> & _); done.
  - by destruct (w_loggers W !! l).
  - destruct (sy_cas S !! ca) as [[c ?]|]; [|done]. destruct (w_cas W !! ca) as [s|]; [|done].
    destruct (CA.issue _ _ _ _) as [[s' ?] ms]. apply WI_send; [done|]. intros y Hy.
    apply elem_of_list_fmap in Hy as ([] & -> & _); done.
  - unfold ca_event. destruct (sy_cas S !! ca) as [[c ?]|]; [|done]. by destruct (w_cas W !! ca).
  - unfold ca_event. destruct (sy_cas S !! ca) as [[c ?]|]; [|done]. by destruct (w_cas W !! ca).
  - destruct (own_event ev) eqn:Eo; [|done]. apply mon_event_ok; [done|..]; intros; by subst.
  - destruct (sy_clients S !! cl) as [cc|]; [|done]. destruct (w_clients W !! cl) as [s|] eqn:Es; [|done].
    destruct (w_mons W !! mon) as [ms|] eqn:Em; [|done].
    destruct (Monitor.m_files ms !! dir) as [txt|] eqn:Ed; [|done]. cbn.
    destruct (Monitor.update_unmarshal txt) as [u|] eqn:Eu; [|done].
    destruct (Client.handle_update z cc s flag u) as [s' o] eqn:Eh.
    assert (Client.cl_pom s' !! e = None) as Hc.
    { eapply client_clear; [by eapply A4| |exact Eh]. destruct (A3 _ _ Em) as (_ & _ & _ & _ & _ & A6). by eapply A6. }
    split_and!; auto. cbn. destruct o; intros cl' s2; rewrite ?lookup_insert_Some, ?lookup_delete_Some; intros [[? ?]|[? ?]] || intros [? ?]; subst; eauto.
Qed.

Lemma WI_unconvicted W : WI W -> unconvicted e W.
Proof using.
  intros (A1 & A2 & A3 & A4). split_and!; auto.
  - intros u y Hy. destruct A1 as [A1 _]. destruct (A1 u y Hy) as (c & _ & (H & _)). apply H.
  - intros mon s i g Hs. destruct (A3 mon s Hs) as (B1 & B2 & B3 & B4 & _). intros [H|[H|[H|H]]]; eauto.
  - intros u g Hg Ht Hp. apply A2 in Hg. specialize (Hg Hp). unfold obj_kind in Hg. rewrite Ht in Hg. exact Hg.
Qed.
End world.

Lemma WI_init {P : prims} x (S : sysconf P) e Dl a b d lt ct : WI S e Dl (world_init x S a b d lt ct).
Proof.
  split_and!; cbn.
  - split; cbn; [|intros p g Hp; by apply elem_of_nil in Hp]. intros u y. rewrite lookup_fmap. destruct (sy_gossipers S !! u) as [c|]; [|done].
    intros [= <-]. exists c. split; [done|]. split_and!; cbn; auto. apply NI_init.
  - intros y Hy. by apply elem_of_nil in Hy.
  - intros mon s. rewrite lookup_fmap. destruct (sy_monitors S !! mon); [|done]. intros [= <-]. apply MI_init.
  - intros cl s. rewrite lookup_fmap. destruct (sy_clients S !! cl); [|done]. intros [= <-]. done.
Qed.

Theorem never_convicted {P : prims} z x (S : sysconf P) a b d lt ct e l :
  let W0 := world_init x S a b d lt ct in
  e <> "" ->
  no_evidence e (shown z x S W0 l) ->
  (forall g, shown z x S W0 l g -> g_p0 g = e -> statement g -> g_signer g <> "") ->
  well_answered z x S W0 e l ->
  unconvicted e (wrun z x S W0 l).
Proof.
  intros W0 Hne He Hs Hw. set (Dl := shown z x S W0 l) in *.
  assert (forall l1 l2, l = (l1 ++ l2)%list -> WI S e Dl (wrun z x S W0 l1)) as H.
  { induction l1 as [|ev l1 IH] using rev_ind; intros l2 El; [apply WI_init|].
    rewrite <- app_assoc in El. cbn in El. rewrite wrun_app. cbn.
    assert (ev ∈ l) as Hin by (rewrite El; apply elem_of_app; right; by left).
    apply WI_step; auto.
    - by eapply IH.
    - intros y ->. destruct y; cbn; auto; apply Dl_NH; auto; right; [left|right; left]; eauto.
    - intros [u path msg] g -> [= ->]. apply Dl_NH; auto. right; right; right. eauto.
    - intros i m mon f url g -> Hy. apply Dl_NH; auto. left. exists l1, (EDeliver i m :: l2), mon, f, url. split; [done|].
      by eapply elem_of_list_lookup_2.
    - intros i m mon f r c u s -> Hy Hc Hm. by eapply (Hw l1 i m l2). }
  eapply WI_unconvicted. apply (H l []). by rewrite app_nil_r.
Qed.
