(** A period of the small system in which everybody is honest: an example of what the whole system delivers. *)
From Verif Require Import Bytes Hex Json Types Crypto Verify Bitset Cert CertPool CTngExt Revocation Prog Gossiper Network Overlap System SpecGossiper SpecNetwork SpecOverlap SpecDetect SpecCodec SpecSystem SpecSystemDetect SpecSystemDeliver Clock Toy RefuteGossiper GossiperSeq NetworkNode RefuteNetwork RefuteOverlap RefuteSystem RefuteSystemDetect RefuteClient SystemFacts.
From Verif Require Logger CA Monitor Client SpecClient.
From Verif Require Import RefuteLogger RefuteCA.
Open Scope string_scope.

(** The CA issues two certificates and the logger publishes in minute 11; in minute 12 the CA's revocation object (with a short
    vector) and the logger's head, fetched by both monitors, are gossiped. *)
Definition small_rev : gobj := toy_init REV_INIT "12" "k3" ca "CRV"
    (rev_marshal (mkrev "12" (bs_marshal none_revoked) (rsa_sign_string (P:=toy) "k3" ca (srh_message (P:=toy) "12" none_revoked none_revoked)))).
Definition deliver1 : list wevent := Eval vm_compute in settled 11 (start "12") (good1 ++ [EPublish lg (at_min 11) (at_min 11) (at_min 11)])%list.
Definition deliver_world : list wevent := Eval vm_compute in settled 12 (start "12") (deliver1 ++ 
  [EInject (ToGossip "g1" small_rev); EMonitor "m1" (Monitor.MQueryLoggers 12); EMonitor "m2" (Monitor.MQueryLoggers 12)])%list.
Definition good_head : gobj := Eval vm_compute in 
  match List.filter (λ ug : string * gobj, String.eqb ug.1 "g2") (given (arrivals (start "12") deliver_world)) with (_, g) :: _ => g | [] => zero_obj end.
(** The first certificate, as the CA has it after the logger's answer. *)
Definition issued_cert : cert := Eval vm_compute in
  match w_cas (sys_run (start "12") deliver_world) !! ca with Some s => match p_certs (CA.a_pool s) with c :: _ => c | [] => toy_cert "" "" 0 end | None => toy_cert "" "" 0 end.
Definition two_said : list gobj := [good_head; small_rev].
Definition cl0 : Client.clst := SpecClient.fresh_client.

Definition undisturbed_b (ev : wevent) : bool := match ev with EInject (ToMon _ _) | EInject (Response _ _ _ _) | EGossip (OTick _ _ _ _) => false | _ => true end.
Lemma deliver_ok : is_oquiet (w_net (sys_run (start "12") deliver_world)) && lossless deliver_world && forallb undisturbed_b deliver_world &&
    bool_decide (given (arrivals (start "12") deliver_world) = [("g1", small_rev); ("g1", good_head); ("g2", good_head)]) &&
    is_nil (w_mail (sys_run (start "12") deliver_world)) = true /\
  deliver_world !! 10 = Some (EDeliver 0 12) /\ w_mail (sys_run (start "12") (take 10 deliver_world)) !! 0 = Some (ToGossip "g1" small_rev) /\
  deliver_world !! 16 = Some (EDeliver 0 12) /\ w_mail (sys_run (start "12") (take 16 deliver_world)) !! 0 = Some (ToGossip "g2" good_head).
Proof. vm_compute. split_and!; reflexivity. Qed.
Lemma deliver_states : is_Some (w_mons (sys_run (start "12") deliver_world) !! "m2") /\ w_clients (sys_run (start "12") deliver_world) !! "c1" = Some cl0.
Proof. vm_compute. split; [eexists|]; reflexivity. Qed.

Lemma deliver_given w g : arrives toy_z toy_x toy_sys (start "12") deliver_world (ToGossip w g) -> g ∈ two_said.
Proof.
  intros H%arrivals_sound. pose proof deliver_ok as [E _]. apply andb_true_iff in E as [[_ E]%andb_true_iff _]. apply bool_decide_eq_true in E.
  assert ((w, g) ∈ given (arrivals (start "12") deliver_world)) as Hg by (unfold given; apply elem_of_list_omap; exists (ToGossip w g); split; [exact H|reflexivity]).
  rewrite E in Hg. rewrite !elem_of_cons, elem_of_nil in Hg. unfold two_said. rewrite !elem_of_cons, elem_of_nil. destruct Hg as [Hg|[Hg|[Hg|[]]]]; injection Hg; auto.
Qed.

Lemma two_honest : honest_network (sy_gossipers toy_sys) 2.
Proof.
  split.
  - intros u c Hc. apply two_gossipers in Hc as [[-> ->]|[-> ->]]; split; reflexivity.
  - intros u c Hc. apply two_gossipers in Hc as [[-> ->]|[-> ->]]; reflexivity.
  - intros u c Hc. apply two_gossipers in Hc as [[-> ->]|[-> ->]]; reflexivity.
  - intros u c H v. rewrite two_known. apply two_gossipers in H as [[-> ->]|[-> ->]]; cbn [gc_neighbours]; rewrite elem_of_list_singleton; naive_solver.
  - intros u c v d Hc Hd. assert (cc_bls_pubs (gc_crypto c) = toy_bls) as -> by (apply two_gossipers in Hc as [[-> ->]|[-> ->]]; reflexivity).
    apply two_gossipers in Hd as [[-> ->]|[-> ->]]; eexists; (split; [reflexivity|]); intros m; apply Z.eqb_refl.
  - cbn [toy_sys sy_gossipers]. rewrite !map_size_insert_None, map_size_singleton by reflexivity. lia.
Qed.

Lemma two_said_valid : valid_statements (sy_gossipers toy_sys) "12" two_said.
Proof.
  split.
  - intros g Hg. unfold two_said in Hg. rewrite !elem_of_cons, elem_of_nil in Hg. destruct Hg as [->|[->|[]]]; repeat split; auto; [by left|by right].
  - intros g u c Hg Hc. unfold two_said in Hg. rewrite !elem_of_cons, elem_of_nil in Hg.
    apply two_gossipers in Hc. destruct Hg as [->|[->|[]]], Hc as [[-> ->]|[-> ->]]; vm_compute; reflexivity.
  - intros g h Hg Hh. unfold two_said in Hg, Hh. rewrite !elem_of_cons, elem_of_nil in Hg, Hh. 
    destruct Hg as [->|[->|[]]], Hh as [->|[->|[]]]; done.
  - intros g u c v d Hg Ht Hc Hd. unfold two_said in Hg. rewrite !elem_of_cons, elem_of_nil in Hg. destruct Hg as [->|[->|[]]]; [done|].
    apply two_gossipers in Hc, Hd. destruct Hc as [[-> ->]|[-> ->]], Hd as [[-> ->]|[-> ->]]; (split; [reflexivity|split; vm_compute; discriminate]).
Qed.

Lemma all_know : knows_gossipers (sy_gossipers toy_sys) (sys_cc "c1" "" 0).
Proof. intros u c Hc. apply two_gossipers in Hc as [[-> ->]|[-> ->]]; split; reflexivity. Qed.
Lemma two_usable h : h ∈ two_said -> usable toy_z (sys_cc "c1" "" 0) cl0 h.
Proof.
  unfold two_said. rewrite !elem_of_cons, elem_of_nil. intros [->|[->|[]]]; (split; intros E; [try discriminate E|try discriminate E]); vm_compute; eauto.
Qed.

Lemma deliver_hypotheses : honest_network (sy_gossipers toy_sys) 2 /\ valid_statements (sy_gossipers toy_sys) "12" two_said /\
  (forall u c, sy_gossipers toy_sys !! u = Some c -> NoDup (gc_neighbours c)) /\ one_period deliver_world /\ clocks_in "12" deliver_world /\ monitors_undisturbed deliver_world /\
  (forall w h, arrives toy_z toy_x toy_sys (start "12") deliver_world (ToGossip w h) -> h ∈ two_said) /\
  oquiescent (w_net (sys_run (start "12") deliver_world)) /\ reports_arrived toy_z toy_x toy_sys (start "12") deliver_world /\
  arrives toy_z toy_x toy_sys (start "12") deliver_world (ToGossip "g1" small_rev) /\ arrives toy_z toy_x toy_sys (start "12") deliver_world (ToGossip "g2" good_head) /\
  is_Some (w_mons (sys_run (start "12") deliver_world) !! "m2") /\ w_clients (sys_run (start "12") deliver_world) !! "c1" = Some cl0 /\
  (forall mon m, EMonitor mon (Monitor.MWipe m) ∉ deliver_world) /\
  knows_gossipers (sy_gossipers toy_sys) (sys_cc "c1" "" 0) /\ (forall h, h ∈ two_said -> usable toy_z (sys_cc "c1" "" 0) cl0 h).
Proof.
  pose proof deliver_ok as (H & H1 & H2 & H3 & H4). apply andb_true_iff in H as [[[[Hq Hl]%andb_true_iff Hu]%andb_true_iff _]%andb_true_iff Hm].
  unfold lossless in Hl. rewrite forallb_forall in Hl. rewrite forallb_forall in Hu.
  split_and!.
  - exact two_honest.
  - exact two_said_valid.
  - intros u c Hc. apply two_gossipers in Hc as [[-> ->]|[-> ->]]; cbn; repeat constructor; apply not_elem_of_nil.
  - intros ev Hev. apply elem_of_list_In, Hl in Hev. by destruct ev.
  - intros u q sec st Hev. apply elem_of_list_In, Hu in Hev. discriminate.
  - intros y Hev. apply elem_of_list_In, Hu in Hev. by destruct y.
  - exact deliver_given.
  - exact (is_oquiet_sound _ Hq).
  - intros mon g. split.
    + exact (nil_none _ _ Hm).
    + intros (l1 & i & l2 & E & _). assert (In (ELose i) deliver_world) as Hin by (rewrite E; apply in_or_app; right; by left). apply Hl in Hin. discriminate.
  - exact (arrives_at _ _ _ _ _ _ H1 H2).
  - exact (arrives_at _ _ _ _ _ _ H3 H4).
  - exact (proj1 deliver_states).
  - exact (proj2 deliver_states).
  - intros mon m Hin. apply elem_of_list_In, Hl in Hin. discriminate.
  - exact all_know.
  - exact two_usable.
Qed.

(** The issued certificate. *)
Lemma issued_info : exists i, SpecClient.relied_on issued_cert = [i] /\ li_sth i = good_head /\ verify (sys_cc "c1" "" 0) (li_sth i) = Accept /\
  proves_inclusion (P := toy) issued_cert i.
Proof.
  eexists. split; [vm_compute; reflexivity|]. split; [vm_compute; reflexivity|]. split; [vm_compute; reflexivity|].
  eexists _, _. split; [vm_compute; reflexivity|]. split; [vm_compute; reflexivity|]. vm_compute. reflexivity.
Qed.
Lemma issued_fresh : c_issuer_cn issued_cert = g_p0 small_rev /\ ~ SpecClient.revoked_in (snd (srh_and_dcrv toy_z small_rev)) issued_cert /\
  ~ SpecClient.convicted cl0 (g_signer good_head) /\ SpecClient.idle cl0 /\ Client.cl_crv cl0 !! c_issuer_cn issued_cert = None.
Proof.
  split; [reflexivity|]. split.
  { vm_compute. intros H. decompose [ex and] H. simplify_eq. }
  split. { intros H. vm_compute in H. decompose [ex or and] H; discriminate. }
  split; [by split_and!|]. reflexivity.
Qed.
(** And at the end of the period the client accepts it. *)
Lemma issued_accepted : exists s, w_clients (sys_run (start "12") (deliver_world ++ period_end_and_load "m2" 12 "c1" "Period_12" true)) !! "c1" = Some s /\
  Client.check_certificate (sys_cc "c1" "" 0) s issued_cert = Accept.
Proof. vm_compute. eexists. split; reflexivity. Qed.

(** No fragment was stored twice, either. *)
Definition no_twice_b (W : world) : bool :=
  forallb (λ uy : string * gpool, forallb (λ g, bool_decide (NoDup (fragments_held "12" (p_st uy.2) g))) two_said) (map_to_list (on_nodes (w_net W))).
Lemma no_twice_sound W : no_twice_b W = true -> no_fragment_twice "12" (w_net W) two_said.
Proof.
  intros H u y g Hy Hg. unfold no_twice_b in H. rewrite forallb_forall in H. specialize (H (u, y)). cbn [snd] in H.
  assert (In (u, y) (map_to_list (on_nodes (w_net W)))) as Hin by (apply elem_of_list_In; by apply elem_of_map_to_list). specialize (H Hin).
  rewrite forallb_forall in H. apply elem_of_list_In in Hg. exact (bool_decide_eq_true_1 _ (H g Hg)).
Qed.
Lemma deliver_twice_b : no_twice_b (sys_run (start "12") deliver_world) = true.
Proof. vm_compute. reflexivity. Qed.
Lemma deliver_no_twice : no_fragment_twice "12" (w_net (sys_run (start "12") deliver_world)) two_said.
Proof. exact (no_twice_sound _ deliver_twice_b). Qed.
