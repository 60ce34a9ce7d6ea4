(** Every message reaches the handler it is meant for. *)
From Verif Require Import Bytes Hex Json Types Crypto Verify Bitset Cert CertPool CTngExt Revocation Clock Prog Gossiper Network Overlap System SpecVerify SpecGossiper ProgFacts GstFacts CodecFacts CryptoFacts VerifyFacts GWalk SystemFacts SystemRuns DetectStep Routes SpecRoutes WireFacts.
From Verif Require Logger CA Monitor Client.
From Coq Require Import Lia.
Open Scope string_scope.

Section node.
Context {P : prims} (cfg : gconf P).
Notation cc := (gc_crypto cfg).

(** A post as the gossiper should make it. *)
Definition good_post (ep : string) (m : gmsg) : Prop :=
  match m with
  | MObj g => ep = endpoint_of (obj_kind g) /\ match obj_kind g with KObj (OFull _) | KUnknown => False | _ => True end
  | MNote _ => ep = "/gossip/new_payload_notification" \/ ep = "/gossip/new_payload_request"
  end.
Definition RI (s : gst) : Prop :=
  (forall u ep m, ToGossiper u ep m ∈ t_trace s -> good_post ep m) /\
  (forall i o, t_payload s !! i = Some o -> obj_kind o = KObj (OInit Rev)).
Definition RR (s s' : gst) : Prop := True.
Notation K := (keeps RI RR).

Lemma RI_frame s s' : (forall u ep m, ToGossiper u ep m ∈ t_trace s' -> ToGossiper u ep m ∈ t_trace s \/ good_post ep m) ->
  (forall i o, t_payload s' !! i = Some o -> t_payload s !! i = Some o \/ obj_kind o = KObj (OInit Rev)) -> RI s -> K s s'.
Proof.
  intros H1 H2 [A B]. split; [|done]. split.
  - intros u ep m Hm. destruct (H1 u ep m Hm); [by eapply A|done].
  - intros i o Ho. destruct (H2 i o Ho); [by eapply B|done].
Qed.
Lemma RI_same s s' : t_trace s' = t_trace s -> t_payload s' = t_payload s -> RI s -> K s s'.
Proof. intros E1 E2. apply RI_frame; intros; left; congruence. Qed.
Lemma RI_trace s l : (forall u ep m, ToGossiper u ep m ∈ l -> good_post ep m) -> RI s -> K s (add_trace s l).
Proof.
  intros Hl. apply RI_frame.
  - intros u ep m. autorewrite with gst. intros [?|?]%elem_of_app; [by left|right]. by eapply Hl.
  - intros i o. autorewrite with gst. by left.
Qed.
Lemma RI_quiet s e : (forall u ep m, e <> ToGossiper u ep m) -> RI s -> K s (add_trace s [e]).
Proof. intros He. apply RI_trace. intros u ep m Hm%elem_of_list_singleton. by destruct (He u ep m). Qed.

Lemma sends_good g : match obj_kind g with KObj (OFull _) | KUnknown => False | _ => True end ->
  forall u ep m, ToGossiper u ep m ∈ sends cfg g -> good_post ep m.
Proof.
  intros Hk u ep m Hm. unfold sends in Hm. apply elem_of_list_fmap in Hm as (url & [= -> -> ->] & _). unfold outgoing.
  destruct (obj_kind g) as [[[]| |]|[]|] eqn:Ek; cbn; try done; try (by rewrite Ek).
  - destruct (oversized cfg g); cbn; [by left|by rewrite Ek].
  - destruct (oversized cfg g); [|by rewrite Ek]. destruct g. unfold obj_kind, remove_payload in *. cbn in *. by rewrite Ek.
Qed.

Lemma RI_inserted s k g : RI s -> K s (inserted s k g).
Proof.
  intros HI. unfold inserted. apply RI_frame; [..|exact HI].
  - intros u ep m. autorewrite with gst. intros [?|Hm%elem_of_list_singleton]%elem_of_app; [by left|done].
  - intros i o. autorewrite with gst. by left.
Qed.

Lemma walk_RI : walk_ok cfg RI RR (λ _ _, True) (λ _, True) (λ _ _, True) (λ _ _, True).
Proof.
  split; try done.
  - intros s g k _ HI _ _ _ _. split; [by apply RI_inserted|done].
  - intros s g f HI _ _ _. split; [by apply RI_inserted|done].
  - intros s g HI _ _ _ _. apply RI_same; auto; by autorewrite with gst.
  - intros s HI. apply RI_same; auto; by autorewrite with gst.
  - intros s HI. apply RI_same; auto; by autorewrite with gst.
  - intros s g HI _ _ Hk. apply RI_frame; [..|exact HI].
    + intros u ep m. autorewrite with gst. by left.
    + intros i o. autorewrite with gst. rewrite lookup_insert_Some. intros [[<- <-]|[_ Ho]]; [by right|by left].
  - intros s g f HI _ Hk. unfold read_and_store. cbn [fst]. destruct (Nat.ltb _ _); (apply RI_frame; [..|exact HI]; [intros u ep m; autorewrite with gst; intros [?|Hm%elem_of_list_singleton]%elem_of_app; [by left|done]|intros i o; autorewrite with gst; by left]).
  - intros s g k HI _ _ _ Hk Hk'. split; [|by apply RI_quiet]. apply RI_trace; [|done]. apply sends_good. rewrite Hk. destruct Hk' as [ -> |[ -> | -> ]]; done.
  - intros s g f HI _ Hk. apply RI_trace; [|done]. apply sends_good. by rewrite Hk.
  - intros s g f HI _ Hk. by apply RI_quiet.
  - intros. cbn zeta. split; [|done]. by apply RI_quiet.
  - intros. cbn zeta. split; [|done]. by apply RI_quiet.
  - intros. cbn zeta. split; [|done]. by apply RI_quiet.
Qed.

Lemma reachable_RI a b c y : gpsteps cfg (init_pool a b c) y -> RI (p_st y).
Proof.
  intros Hs.
  assert (pool_ok RI RR (λ _ _, True) (λ _, True) y) as (HI & _); [|done].
  eapply pool_steps; [| | | | |exact Hs|].
  - apply (w_pre _ _ _ _ _ _ _ walk_RI).
  - apply (w_tok _ _ _ _ _ _ _ walk_RI).
  - intros t s Ht. by eapply s_start; [exact walk_RI|].
  - intros p s Hp HI. destruct Hp.
    + by eapply s_object; [exact walk_RI|..].
    + apply s_note; [|apply (w_pre _ _ _ _ _ _ _ walk_RI)]. intros s1 url n' H1. apply RI_trace; [|done]. intros u ep m [= -> -> ->]%elem_of_list_singleton. by right.
    + eapply s_request; [exact walk_RI|]. intros s0 s2 i o url I0 Ho HR HI2. apply RI_trace; [|done].
      intros u ep m [= -> -> ->]%elem_of_list_singleton. apply I0 in Ho. cbn. by rewrite Ho.
    + eapply s_periodic; [exact walk_RI|..].
      * intros s1 e H1. apply RI_same; auto; by autorewrite with gst.
      * intros s1 H1. apply RI_frame; [..|exact H1]; [|intros i o; autorewrite with gst; by rewrite lookup_empty].
        intros u ep m. autorewrite with gst. intros [?|Hm%elem_of_list_singleton]%elem_of_app; [by left|done].
      * intros s0 s1 _ _ H1. apply RI_same; auto; by autorewrite with gst.
      * intros s1 H1. apply RI_same; auto; by autorewrite with gst.
      * intros s0 s1 _ _ H1. apply RI_same; auto; by autorewrite with gst.
  - intros s s' (p & sec & st & ->) HI. apply RI_same; auto; by autorewrite with gst.
  - split_and!; cbn; auto. split; [intros u ep m Hm; by apply elem_of_nil in Hm|]. intros i o. cbn. by rewrite lookup_empty.
Qed.
End node.

Lemma good_served p : good_post (po_path p) (po_msg p) -> object_post p \/ note_post p.
Proof.
  unfold good_post. destruct (po_msg p) as [g|n] eqn:Em.
  - intros [E Hk]. left. exists g. split; [done|]. rewrite E. unfold obj_kind in *. destruct (kind_of (g_type g)) as [[[]| |]|[]|]; done.
  - intros E. right. exists n. split; [done|]. destruct E as [ -> | -> ]; [by left|by right].
Qed.

(** ** Monitors *)
Section mon.
Context {P : prims} (z : gzip) (c : @Monitor.mconf P).
Definition good_out (o : Monitor.mout) : Prop :=
  match o with
  | Monitor.MSend g => exists f, obj_kind g = KObj (OInit f)
  | Monitor.MAsk f _ => f <> Acc
  end.
Lemma valid_out s g : Forall good_out (Monitor.process_valid z c s g).2.
Proof.
  unfold Monitor.process_valid. destruct (obj_kind g) as [[[]| |]|[]|] eqn:Ek; cbn; try done.
  all: match goal with |- Forall _ (if ?b then _ else _) => destruct b; [|done] end; apply Forall_singleton; cbn; eauto.
Qed.
Lemma query_out s m f urls : f <> Acc -> Forall good_out (Monitor.query s m f urls).
Proof. intros Hf. unfold Monitor.query. apply Forall_map, Forall_true. by intros. Qed.

Lemma mstep_out s e s' o : Monitor.mstep z c s e = Some (s', o) -> Forall good_out o.
Proof.
  destruct e; cbn [Monitor.mstep]; try (by intros [= <- <-]); try (intros [= <- <-]; by apply query_out).
  - intros [= E]. unfold Monitor.handle_gossip in E. assert (o = (s', o).2) as -> by done. rewrite <- E. clear E.
    destruct (Monitor.is_duplicate s g); [by apply Forall_nil|]. destruct (obj_kind g) as [[[]| |]|[]|] eqn:Ek; try (by apply Forall_nil); apply valid_out.
  - unfold Monitor.handle_reply. destruct r as [g|]; [|by intros [= <- <-]]. destruct (verify _ g); try done; try (by intros [= <- <-]).
    assert (Some (Monitor.process_valid z c s g) = Some (s', o) -> Forall good_out o) as Hv.
    { intros [= E]. assert (o = (s', o).2) as -> by done. rewrite <- E. apply valid_out. }
    destruct f; try exact Hv. destruct (Monitor.check_rev z c s g); try done; try (by intros [= <- <-]).
  - destruct (Monitor.m_timers s !! n) as [t|]; [|by intros [= <- <-]]. intros [= E]. assert (o = (s', o).2) as -> by done. rewrite <- E. clear E.
    destruct t as [|e f]; cbn; [|unfold Monitor.accuse_timer, Monitor.accuse]; try done. repeat case_match; try done. apply Forall_singleton. by exists Acc.
Qed.
End mon.

(** ** The whole system *)
Section sys.
Context {P : prims} (z : gzip) (x : CA.x509lib) (S : sysconf P).
Context (p sec st : string).
Notation cfgs := (sy_gossipers S).
Notation wstep := (wstep z x S).

Definition good_mail (y : mail) : Prop :=
  match y with
  | Query _ f _ => f <> Acc
  | ToGossip _ g => exists f, obj_kind g = KObj (OInit f)
  | _ => True
  end.
Definition flight_ok (N : onet) : Prop := forall q, q ∈ on_flight N -> good_post (po_path q) (po_msg q).
Definition SI (W : world) : Prop := net_reached S p sec st (w_net W) /\ flight_ok (w_net W) /\ (forall y, y ∈ w_mail W -> good_mail y).

Lemma act_flight N u f : net_reached S p sec st (oact cfgs N u f) -> flight_ok N -> flight_ok (oact cfgs N u f).
Proof.
  unfold oact. destruct (cfgs !! u) as [c|] eqn:Hc; [|done]. destruct (on_nodes N !! u) as [y|] eqn:Hy; [|done].
  intros HN HF q. cbn [on_flight]. intros [Hq|Hq]%elem_of_app; [by apply HF|].
  destruct (HN u (f c y)) as (c' & Hc' & Hs); [cbn; by rewrite lookup_insert|]. destruct (reachable_RI _ _ _ _ _ Hs) as [A _].
  unfold posts in Hq. apply elem_of_list_omap in Hq as (e & He & E). destruct e; try done. injection E as <-. cbn. eapply A.
  rewrite <- (take_drop (length (t_trace (p_st y))) (t_trace (p_st (f c y)))). apply elem_of_app. right. exact He.
Qed.

Lemma step_flight N ev : net_reached S p sec st (onet_step cfgs N ev) -> flight_ok N -> flight_ok (onet_step cfgs N ev).
Proof.
  destruct ev as [u g|j|u j|u j|u q sc t]; cbn [onet_step]; try apply act_flight.
  destruct (on_flight N !! j) as [q|] eqn:E; [|done].
  intros HN HF. assert (flight_ok (mkonet (on_nodes N) (delete j (on_flight N)))) as HF' by (intros r Hr; cbn in Hr; apply HF; by eapply in_delete).
  destruct (arrival q); [|done]. by apply act_flight.
Qed.

Lemma mail_event W ev y : (forall y, y ∈ w_mail W -> good_mail y) -> match ev with EInject _ => False | _ => True end -> y ∈ w_mail (wstep W ev) -> good_mail y.
Proof.
  intros H Hev.
  assert (forall W1 mon me y, (forall y, y ∈ w_mail W1 -> good_mail y) -> y ∈ w_mail (mon_event z S W1 mon me) -> good_mail y) as Hm.
  { intros W1 mon me y' H1. unfold mon_event. destruct (sy_monitors S !! mon) as [[c u]|]; [|apply H1]. destruct (w_mons W1 !! mon) as [s|]; [|apply H1].
    destruct (Monitor.mstep z c s me) as [[s' o]|] eqn:E; cbn; [|apply H1]. rewrite elem_of_app. intros [Hy|Hy]; [by apply H1|].
    apply elem_of_list_fmap in Hy as (mo & -> & Hmo). apply mstep_out in E. rewrite Forall_forall in E. specialize (E mo Hmo). by destruct mo. }
  assert (forall W1 N y, (forall y, y ∈ w_mail W1 -> good_mail y) -> y ∈ w_mail (with_net W1 N) -> good_mail y) as Hn.
  { intros W1 N y' H1. unfold with_net. cbn. rewrite elem_of_app. intros [Hy|Hy]; [by apply H1|].
    unfold new_reports in Hy. apply elem_of_list_In, in_concat in Hy as (ms & (uy & <- & _)%in_map_iff & Hms%elem_of_list_In).
    destruct (on_nodes (w_net W1) !! uy.1); [|by apply elem_of_nil in Hms].
    unfold reports in Hms. apply elem_of_list_omap in Hms as (g & _ & E). destruct g; try done. by injection E as <-. }
  assert (forall W1 ms, (forall y, y ∈ w_mail W1 -> good_mail y) -> Forall good_mail ms -> y ∈ w_mail (send W1 ms) -> good_mail y) as Hs.
  { intros W1 ms H1 H2. cbn. rewrite elem_of_app. intros [Hy|Hy]; [by apply H1|]. rewrite Forall_forall in H2. by apply H2. }
  assert (forall i y, y ∈ delete i (w_mail W) -> good_mail y) as Hd by (intros i y' Hy; eapply H, in_delete; exact Hy).
  destruct ev; cbn [System.wstep]; try done; unfold ca_event.
  - destruct (w_mail W !! i) as [y'|]; [|apply H]. destruct y'; cbn [receive].
    all: try (apply Hm; cbn; apply Hd); try (apply Hn; cbn; apply Hd).
    all: unfold ask; repeat case_match; try (apply Hd); try (apply Hs; [cbn; apply Hd|by apply Forall_singleton]).
  - destruct (w_mail W !! i) as [y'|] eqn:E; [|apply H]. cbn. rewrite elem_of_app. intros [Hy|Hy]; [by eapply Hd|].
    destruct y'; cbn in Hy; try (by apply elem_of_nil in Hy); apply elem_of_list_singleton in Hy as ->; done.
  - apply H.
  - destruct (inner_event e); [by apply Hn|apply H].
  - by apply Hn.
  - repeat case_match; try (apply H); (apply Hs; [apply H|]); apply Forall_map, Forall_true; by intros [].
  - repeat case_match; apply H.
  - repeat case_match; try (apply H); (apply Hs; [apply H|]); apply Forall_map, Forall_true; by intros [].
  - repeat case_match; apply H.
  - repeat case_match; apply H.
  - destruct (own_event e); [by apply Hm|apply H].
  - repeat case_match; apply H.
Qed.

Lemma SI_step W ev : match ev with EInject _ | EPost _ => False | _ => True end -> SI W -> SI (wstep W ev).
Proof.
  intros Hev (H1 & H2 & H3). assert (net_reached S p sec st (w_net (wstep W ev))) as H1' by (eapply later_reached; [exact H1|]; by apply (world_later z x S p sec st)).
  split_and!; [done|..].
  - assert (match ev with EPost _ | EPeriod _ => False | _ => True end -> flight_ok (w_net (wstep W ev))) as Hmost.
    { intros He. rewrite step_net in * by done. destruct ev; cbn [net_part] in *; try exact H2.
      - destruct (w_mail W !! i) as [[]|]; try exact H2. by apply step_flight.
      - destruct (inner_event e); [|exact H2]. by apply step_flight. }
    destruct ev; try done; try (by apply Hmost). cbn in *. by apply act_flight.
  - intros y. apply mail_event; [done|]. by destruct ev.
Qed.

Theorem all_routed l lt ct : let W := System.wrun z x S (world_init x S p sec st lt ct) l in no_outsiders l ->
  (forall y, y ∈ w_mail W -> reaches_handler y) /\ (forall q, q ∈ on_flight (w_net W) -> object_post q \/ note_post q).
Proof.
  cbn zeta. intros [Hi Hp]. assert (SI (System.wrun z x S (world_init x S p sec st lt ct) l)) as (_ & H2 & H3).
  { induction l as [|ev l IH] using rev_ind.
    - split_and!; [apply init_reached|intros q Hq; by apply elem_of_nil in Hq|intros y Hy; by apply elem_of_nil in Hy].
    - rewrite run_snoc. apply SI_step; [|apply IH]; [|intros y Hy; apply (Hi y), elem_of_app; by left|intros y Hy; apply (Hp y), elem_of_app; by left].
      destruct ev; try done; [apply (Hi x0)|apply (Hp p0)]; apply elem_of_app; right; by apply elem_of_list_singleton. }
  split; [|intros q Hq; apply good_served; by apply H2].
  intros y Hy. specialize (H3 y Hy). destruct y; cbn; try done; try (by repeat eexists).
  - destruct f; [by repeat eexists..|done].
  - destruct H3 as [f Hf]. exists gossiper_routes, POST, (send_path g), HObject. split_and!; [done..|]. apply obj_kind_obj in Hf.
    unfold send_path. rewrite Hf. by destruct f.
Qed.
End sys.

(** ** One gossiper, whatever it receives *)
Theorem gossiper_routed {P : prims} (cfg : gconf P) s u ep m : reachable cfg s -> ToGossiper u ep m ∈ t_trace s ->
  object_post (mkpost u ep m) \/ note_post (mkpost u ep m).
Proof. intros (a & b & c & y & Hs & <-) Hm. apply good_served. destruct (reachable_RI _ _ _ _ _ Hs) as [A _]. by eapply A. Qed.

(** ** One monitor, whatever it receives *)
Theorem monitor_routed {P : prims} (z : gzip) (c : @Monitor.mconf P) s e s' o mo mon u : Monitor.mstep z c s e = Some (s', o) -> mo ∈ o ->
  reaches_handler (mon_mail mon u mo).
Proof.
  intros E Hm. apply mstep_out in E. rewrite Forall_forall in E. specialize (E mo Hm). destruct mo as [g|f url]; cbn in *.
  - destruct E as [f Hf]. exists gossiper_routes, POST, (send_path g), HObject. split_and!; [done..|]. apply obj_kind_obj in Hf.
    unfold send_path. rewrite Hf. by destruct f.
  - destruct f; [by repeat eexists..|done].
Qed.

(** ** The gossipers' network delivers by the table *)
Lemma eqb_slash a b : String.eqb (a ++ "/") b = true -> b = (a ++ "/").
Proof. by intros ->%String.eqb_eq. Qed.

Lemma gossiper_served path : match ask_server gossiper_routes POST path with
  | Serve HObject => bool_decide (path ∈ object_paths) = true
  | Serve HRequest => path = "/gossip/new_payload_request"
  | Serve HNotification => path = "/gossip/new_payload_notification"
  | Serve _ => False
  | _ => bool_decide (path ∈ object_paths) = false /\ path <> "/gossip/new_payload_request" /\ path <> "/gossip/new_payload_notification"
  end.
Proof.
  destruct (decide (path ∈ ("/gossip/new_payload_request" :: "/gossip/new_payload_notification" :: object_paths))) as [H|H].
  - repeat (apply elem_of_cons in H as [ -> |H]; [by vm_compute|]). by apply elem_of_nil in H.
  - assert (bool_decide (path ∈ object_paths) = false /\ path <> "/gossip/new_payload_request" /\ path <> "/gossip/new_payload_notification") as HN.
    { split_and!; [apply bool_decide_eq_false|intros -> ..]; [intros X|..]; apply H; [by do 2 right|by left|right; by left]. }
    destruct (decide (path ∈ map (λ q, q ++ "/") ("/gossip/new_payload_request" :: "/gossip/new_payload_notification" :: object_paths))) as [Hs|Hs].
    + cbn [map object_paths] in Hs. repeat (apply elem_of_cons in Hs as [E|Hs]; [subst path; exact HN|]). by apply elem_of_nil in Hs.
    + unfold object_paths in H, Hs. cbn [map] in Hs. rewrite !not_elem_of_cons in H, Hs.
      destruct H as (A1 & A2 & A3 & A4 & A5 & A6 & A7 & A8 & A9 & _). destruct Hs as (B1 & B2 & B3 & B4 & B5 & B6 & B7 & B8 & B9 & _).
      replace (ask_server gossiper_routes POST path) with NotFound; [exact HN|]. symmetry. clear HN.
      unfold ask_server, serve, gossiper_routes, fits. cbn [List.find existsb fst snd].
      rewrite !(proj2 (String.eqb_neq path _)) by assumption. done.
Qed.

Theorem arrival_routes q : arrival q =
  let body := match po_msg q with MObj g => gobj_marshal g | MNote n => note_marshal n end in
  match ask_server gossiper_routes POST (po_path q) with
  | Serve HObject => Recv (Z.of_nat (len body)) <$> gobj_decode body
  | Serve HRequest => Request <$> note_decode body
  | Serve HNotification => Notify <$> note_decode body
  | _ => None
  end.
Proof.
  cbn zeta. pose proof (gossiper_served (po_path q)) as H. unfold arrival.
  destruct (ask_server gossiper_routes POST (po_path q)) as [| | |[]]; try done.
  all: try (destruct H as (-> & H1%String.eqb_neq & H2%String.eqb_neq); by rewrite H1, H2).
  - by rewrite H.
  - rewrite H. done.
  - rewrite H. done.
Qed.

(** Aggregates have no path of their own, but every path for objects takes them. *)
Theorem any_object_anywhere u ep g : ask_server gossiper_routes POST ep = Serve HObject ->
  arrival (mkpost u ep (MObj g)) = Some (Recv (Z.of_nat (len (gobj_marshal g))) g).
Proof. intros H. rewrite arrival_routes. cbn zeta. cbn [po_msg po_path]. rewrite H, gobj_roundtrip. done. Qed.

Theorem full_path_refused f : ask_server gossiper_routes POST (endpoint_of (KObj (OFull f))) = NotFound.
Proof. by destruct f. Qed.

(** A slash at the end: gets are redirected, posts are lost. *)
Theorem slash t m path h : t ∈ [gossiper_routes; logger_routes; ca_routes; monitor_routes] -> (m, path, h) ∈ t ->
  ask_server t m path = Serve h /\ ask_server t m (path ++ "/") = match m with GET => Serve h | POST => NotAllowed end.
Proof.
  intros Ht. repeat (apply elem_of_cons in Ht as [ -> |Ht]; [intros H; repeat (apply elem_of_cons in H as [[= -> -> ->]|H]; [by vm_compute|]); by apply elem_of_nil in H|]). by apply elem_of_nil in Ht.
Qed.

(** Monitors and gossipers use the same path for statements of the same type. *)
Lemma same_path g f : obj_kind g = KObj (OInit f) -> send_path g = endpoint_of (KObj (OInit f)).
Proof.
  unfold obj_kind, kind_of, send_path. destruct (String.eqb_spec (g_type g) STH_INIT) as [E|N1]; [intros [= <-]; rewrite ?E; reflexivity|].
  destruct (String.eqb_spec (g_type g) REV_INIT) as [E|N2]; [intros [= <-]; rewrite ?E; reflexivity|].
  destruct (String.eqb_spec (g_type g) ACC_INIT) as [E|N3]; [intros [= <-]; rewrite ?E; reflexivity|].
  repeat (match goal with |- context[if ?b then _ else _] => destruct b end; [discriminate|]). discriminate.
Qed.

(** No two types share a path. *)
Lemma own_path k1 k2 : endpoint_of k1 = endpoint_of k2 -> k1 = k2.
Proof. destruct k1 as [[[]| |[]]|[]|], k2 as [[[]| |[]]|[]|]; (reflexivity || discriminate). Qed.
