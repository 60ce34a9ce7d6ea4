(** A period of the small system in which a CA revokes a certificate. *)
From Verif Require Import Bytes Hex Json Types Crypto Verify Bitset Cert CertPool CTngExt Revocation Prog Gossiper Network Overlap System SpecGossiper SpecNetwork SpecOverlap SpecDetect SpecCodec SpecSystem SpecSystemDetect SpecSystemDeliver Clock Toy RefuteGossiper GossiperSeq NetworkNode RefuteNetwork RefuteOverlap RefuteSystem RefuteSystemDetect RefuteClient SystemFacts RefuteSystemDeliver.
From Verif Require Logger CA Monitor Client SpecClient.
From Verif Require Import RefuteLogger RefuteCA.
Open Scope string_scope.

(** As in the example of RefuteSystemDeliver, but the CA's revocation object (with a short vector) revokes the first certificate. *)
Definition first_revoked : bitset := bs_set none_revoked 1.
Definition one_revoked : gobj := toy_init REV_INIT "12" "k3" ca "CRV"
    (rev_marshal (mkrev "12" (bs_marshal first_revoked) (rsa_sign_string (P:=toy) "k3" ca (srh_message (P:=toy) "12" first_revoked first_revoked)))).
Definition revoke_world : list wevent := Eval vm_compute in settled 12 (start "12") (deliver1 ++
  [EInject (ToGossip "g1" one_revoked); EMonitor "m1" (Monitor.MQueryLoggers 12); EMonitor "m2" (Monitor.MQueryLoggers 12)])%list.
Definition revoke_said : list gobj := [good_head; one_revoked].

Lemma revoke_ok : is_oquiet (w_net (sys_run (start "12") revoke_world)) && lossless revoke_world && forallb undisturbed_b revoke_world &&
    bool_decide (given (arrivals (start "12") revoke_world) = [("g1", one_revoked); ("g1", good_head); ("g2", good_head)]) &&
    is_nil (w_mail (sys_run (start "12") revoke_world)) = true /\
  revoke_world !! 10 = Some (EDeliver 0 12) /\ w_mail (sys_run (start "12") (take 10 revoke_world)) !! 0 = Some (ToGossip "g1" one_revoked) /\
  revoke_world !! 16 = Some (EDeliver 0 12) /\ w_mail (sys_run (start "12") (take 16 revoke_world)) !! 0 = Some (ToGossip "g2" good_head).
Proof. vm_compute. split_and!; reflexivity. Qed.
Lemma revoke_states : is_Some (w_mons (sys_run (start "12") revoke_world) !! "m2") /\ w_clients (sys_run (start "12") revoke_world) !! "c1" = Some cl0.
Proof. vm_compute. split; [eexists|]; reflexivity. Qed.

Lemma revoke_given w g : arrives toy_z toy_x toy_sys (start "12") revoke_world (ToGossip w g) -> g ∈ revoke_said.
Proof.
  intros H%arrivals_sound. pose proof revoke_ok as [E _]. apply andb_true_iff in E as [[_ E]%andb_true_iff _]. apply bool_decide_eq_true in E.
  assert ((w, g) ∈ given (arrivals (start "12") revoke_world)) as Hg by (unfold given; apply elem_of_list_omap; exists (ToGossip w g); split; [exact H|reflexivity]).
  rewrite E in Hg. rewrite !elem_of_cons, elem_of_nil in Hg. unfold revoke_said. rewrite !elem_of_cons, elem_of_nil. destruct Hg as [Hg|[Hg|[Hg|[]]]]; injection Hg; auto.
Qed.

Lemma revoke_said_valid : valid_statements (sy_gossipers toy_sys) "12" revoke_said.
Proof.
  split.
  - intros g Hg. unfold revoke_said in Hg. rewrite !elem_of_cons, elem_of_nil in Hg. destruct Hg as [->|[->|[]]]; repeat split; auto; [by left|by right].
  - intros g u c Hg Hc. unfold revoke_said in Hg. rewrite !elem_of_cons, elem_of_nil in Hg.
    apply two_gossipers in Hc. destruct Hg as [->|[->|[]]], Hc as [[-> ->]|[-> ->]]; vm_compute; reflexivity.
  - intros g h Hg Hh. unfold revoke_said in Hg, Hh. rewrite !elem_of_cons, elem_of_nil in Hg, Hh. 
    destruct Hg as [->|[->|[]]], Hh as [->|[->|[]]]; done.
  - intros g u c v d Hg Ht Hc Hd. unfold revoke_said in Hg. rewrite !elem_of_cons, elem_of_nil in Hg. destruct Hg as [->|[->|[]]]; [done|].
    apply two_gossipers in Hc, Hd. destruct Hc as [[-> ->]|[-> ->]], Hd as [[-> ->]|[-> ->]]; (split; [reflexivity|split; vm_compute; discriminate]).
Qed.

Lemma revoke_usable h : h ∈ revoke_said -> usable toy_z (sys_cc "c1" "" 0) cl0 h.
Proof.
  unfold revoke_said. rewrite !elem_of_cons, elem_of_nil. intros [->|[->|[]]]; (split; intros E; [try discriminate E|try discriminate E]); vm_compute; eauto.
Qed.

Lemma revoke_hypotheses : honest_network (sy_gossipers toy_sys) 2 /\ valid_statements (sy_gossipers toy_sys) "12" revoke_said /\
  (forall u c, sy_gossipers toy_sys !! u = Some c -> NoDup (gc_neighbours c)) /\ one_period revoke_world /\ clocks_in "12" revoke_world /\ monitors_undisturbed revoke_world /\
  (forall w h, arrives toy_z toy_x toy_sys (start "12") revoke_world (ToGossip w h) -> h ∈ revoke_said) /\
  oquiescent (w_net (sys_run (start "12") revoke_world)) /\ reports_arrived toy_z toy_x toy_sys (start "12") revoke_world /\
  arrives toy_z toy_x toy_sys (start "12") revoke_world (ToGossip "g1" one_revoked) /\ arrives toy_z toy_x toy_sys (start "12") revoke_world (ToGossip "g2" good_head) /\
  is_Some (w_mons (sys_run (start "12") revoke_world) !! "m2") /\ w_clients (sys_run (start "12") revoke_world) !! "c1" = Some cl0 /\
  (forall mon m, EMonitor mon (Monitor.MWipe m) ∉ revoke_world) /\
  knows_gossipers (sy_gossipers toy_sys) (sys_cc "c1" "" 0) /\ (forall h, h ∈ revoke_said -> usable toy_z (sys_cc "c1" "" 0) cl0 h).
Proof.
  pose proof revoke_ok as (H & H1 & H2 & H3 & H4). apply andb_true_iff in H as [[[[Hq Hl]%andb_true_iff Hu]%andb_true_iff _]%andb_true_iff Hm].
  unfold lossless in Hl. rewrite forallb_forall in Hl. rewrite forallb_forall in Hu.
  split_and!.
  - exact two_honest.
  - exact revoke_said_valid.
  - intros u c Hc. apply two_gossipers in Hc as [[-> ->]|[-> ->]]; cbn; repeat constructor; apply not_elem_of_nil.
  - intros ev Hev. apply elem_of_list_In, Hl in Hev. by destruct ev.
  - intros u q sec st Hev. apply elem_of_list_In, Hu in Hev. discriminate.
  - intros y Hev. apply elem_of_list_In, Hu in Hev. by destruct y.
  - exact revoke_given.
  - exact (is_oquiet_sound _ Hq).
  - intros mon g. split.
    + exact (nil_none _ _ Hm).
    + intros (l1 & i & l2 & E & _). assert (In (ELose i) revoke_world) as Hin by (rewrite E; apply in_or_app; right; by left). apply Hl in Hin. discriminate.
  - exact (arrives_at _ _ _ _ _ _ H1 H2).
  - exact (arrives_at _ _ _ _ _ _ H3 H4).
  - exact (proj1 revoke_states).
  - exact (proj2 revoke_states).
  - intros mon m Hin. apply elem_of_list_In, Hl in Hin. discriminate.
  - exact all_know.
  - exact revoke_usable.
Qed.


Lemma revoke_revoked : Client.cl_crv cl0 !! g_p0 one_revoked = None /\ c_issuer_cn issued_cert = g_p0 one_revoked /\
  SpecClient.revoked_in (snd (srh_and_dcrv toy_z one_revoked)) issued_cert.
Proof. split; [reflexivity|]. split; [reflexivity|]. vm_compute. split; reflexivity. Qed.
