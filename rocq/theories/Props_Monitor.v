(** C41-C45, C64-C69: monitors. *)
From Verif Require Import Bytes Base64 Json Types Crypto Verify SpecVerify SpecCodec Gossiper Logger Bitset Revocation Clock.
From Verif Require Import Monitor SpecMonitor MonitorFacts MonitorUpdate MonitorMore MonitorServe RefuteMonitor Toy RefuteLogger RefuteCA.
Open Scope string_scope.

(** C41 *)
Theorem C41_filed : forall (P : prims) z (c : mconf (P:=P)) l s, reached z c l s ->
  filed (m_temp s) [STH_INIT; REV_INIT] /\ filed (m_con s) [CON_INIT] /\ filed (m_acc s) [ACC_FULL] /\
  filed (m_con_d s) [CON_INIT] /\ filed (m_acc_d s) [ACC_FULL] /\
  filed (m_sth s) [STH_FULL] /\ filed (m_rev s) [REV_FULL].
Proof. exact @reached_filed. Qed.
Print Assumptions C41_filed.

Theorem C41_conflicts_kept : forall (P : prims) z (c : mconf (P:=P)) s l s' o i g,
  mrun z c s l = Some (s', o) -> m_con s !! i = Some g ->
  exists g', m_con s' !! i = Some g' /\ (g' = g \/ received l g').
Proof. exact @con_kept. Qed.
Print Assumptions C41_conflicts_kept.

Theorem C41_accusations_kept : forall (P : prims) z (c : mconf (P:=P)) s l s' o i g,
  mrun z c s l = Some (s', o) -> m_acc s !! i = Some g ->
  exists g', m_acc s' !! i = Some g' /\ (g' = g \/ received l g').
Proof. exact @acc_kept. Qed.
Print Assumptions C41_accusations_kept.

Theorem C41_gossip_stored : forall (P : prims) z (c : mconf (P:=P)) s g s' o,
  monitor_type (g_type g) -> mstep z c s (MGossip g) = Some (s', o) -> at_home s' g.
Proof. exact @gossip_stored. Qed.
Print Assumptions C41_gossip_stored.

Definition busy : list mevent :=
  [MQueryLoggers 7; MReply Sth "localhost:9101" None; MGossip toy_con; MGossip toy_sth_full; MGossip toy_acc_full] ++ period_end 7 ++ [MFire 0 7 "t"].
Example C41_ex : exists s, reached toy_z toy_mc busy s /\ size (m_con s) = 1 /\ size (m_acc s) = 1 /\ size (m_sth s) = 1.
Proof. exists (run_to busy). split; [apply run_to_reached|split_and!]; vm_compute; reflexivity. Qed.

(** C42 *)
Theorem C42_verified_refuted : forall (P : prims) z (c : mconf (P:=P)) m e, exists s u,
  reached z c [MGossip (garbage ACC_FULL (pad2 m) e)] s /\
  verify (mc_crypto c) (garbage ACC_FULL (pad2 m) e) = Reject /\ held s (garbage ACC_FULL (pad2 m) e) /\
  u ∈ written z c monitor_init ([MGossip (garbage ACC_FULL (pad2 m) e)] ++ period_end m) /\ listed u (garbage ACC_FULL (pad2 m) e).
Proof. exact @garbage_written. Qed.
Print Assumptions C42_verified_refuted.

Theorem C42_verified_or_gossiped : forall (P : prims) z (c : mconf (P:=P)) l s g, reached z c l s -> held s g ->
  received l g /\ (verify (mc_crypto c) g = Accept \/ MGossip g ∈ l).
Proof. exact @held_received. Qed.
Print Assumptions C42_verified_or_gossiped.

Theorem C42_verified_partial : forall (P : prims) z (c : mconf (P:=P)) l s g, reached z c l s ->
  (forall x, MGossip x ∈ l -> g_type x ∈ [STH_FULL; REV_FULL; CON_INIT; ACC_FULL] -> verify (mc_crypto c) x = Accept) ->
  held s g -> verify (mc_crypto c) g = Accept.
Proof. exact @held_verified. Qed.
Print Assumptions C42_verified_partial.

Example C42_ex : forall x, MGossip x ∈ busy -> verify (mc_crypto toy_mc) x = Accept.
Proof.
  assert (Forall (λ e, match e with MGossip x => verify (mc_crypto toy_mc) x = Accept | _ => True end) busy) as F.
  { unfold busy, period_end. cbn [app]. repeat (constructor; [first [exact I|vm_compute; reflexivity]|]). constructor. }
  intros x H. rewrite Forall_forall in F. exact (F _ H).
Qed.

(** C43: what the update written at an uninterrupted end of period contains. *)
Theorem C43_update_exactly_partial : forall (P : prims) z (c : mconf (P:=P)) l s m, reached z c l s -> exists u s',
  reached z c (l ++ period_end m) s' /\
  written z c monitor_init (l ++ period_end m) = (written z c monitor_init l ++ [u])%list /\
  m_files s' !! ("Period_" ++ itoa (Z.of_nat m - mc_offset c)) = Some (update_marshal u) /\
  u_monitor u = cc_self (mc_crypto c) /\ u_period u = pad2 m /\ NoDup (map get_id (contents u)) /\
  (forall g, g ∈ contents u -> listed u g /\ g_period g = pad2 m /\ received l g) /\
  (forall g, g ∈ u_sths u <-> m_sth s !! get_id g = Some g /\ g_period g = pad2 m /\ m_con s !! mkgid "0" CON_INIT (g_p0 g) = None) /\
  (forall g, g ∈ u_revs u <-> m_rev s !! get_id g = Some g /\ g_period g = pad2 m /\ m_con s !! mkgid "0" CON_INIT (g_p0 g) = None) /\
  (forall g, g ∈ u_cons u <-> m_con_d s !! get_id g = Some g /\ g_period g = pad2 m) /\
  (forall g, g ∈ u_accs u <-> m_acc_d s !! get_id g = Some g /\ g_period g = pad2 m).
Proof. exact @period_update. Qed.
Print Assumptions C43_update_exactly_partial.

Theorem C43_statement_published_partial : forall (P : prims) z (c : mconf (P:=P)) l1 g l2 s m,
  reached z c (l1 ++ MGossip g :: l2) s ->
  g_type g ∈ [STH_FULL; REV_FULL] -> g_period g = pad2 m -> undisturbed g l2 ->
  no_zero_con (g_p0 g) (l1 ++ MGossip g :: l2) ->
  exists u, u ∈ written z c monitor_init ((l1 ++ MGossip g :: l2) ++ period_end m) /\ listed u g.
Proof. exact @statement_written. Qed.
Print Assumptions C43_statement_published_partial.

Theorem C43_proof_published_partial : forall (P : prims) z (c : mconf (P:=P)) l1 g l2 s m,
  reached z c (l1 ++ MGossip g :: l2) s ->
  g_type g ∈ [CON_INIT; ACC_FULL] -> g_period g = pad2 m -> undisturbed g l2 ->
  (forall x, received l1 x -> get_id x <> get_id g) ->
  exists u, u ∈ written z c monitor_init ((l1 ++ MGossip g :: l2) ++ period_end m) /\ listed u g.
Proof. exact @proof_written. Qed.
Print Assumptions C43_proof_published_partial.

(** A proof that reaches the monitor after the update of its period is never published. *)
Theorem C43_proof_lost_refuted : forall (P : prims) z (c : mconf (P:=P)) l0 g m l',
  g_type g ∈ [CON_INIT; ACC_FULL] -> pad2 m <> g_period g -> ~ received l0 g ->
  (forall e x, e ∈ l' -> carries e x -> get_id x = get_id g -> e = MGossip g) ->
  forall u, u ∈ written z c monitor_init (l0 ++ MGossip g :: MWipe m :: l') -> g ∉ contents u.
Proof. exact @proof_lost. Qed.
Print Assumptions C43_proof_lost_refuted.

(** The accusation of period 07 arrives just after the update of minute 7, and again in
    the next hour: three updates, none with it. *)
Definition too_late : list mevent :=
  period_end 7 ++ MGossip toy_acc_full :: period_end 8 ++ MGossip toy_acc_full :: period_end 7.
Example C43_lost_ex : verify (mc_crypto toy_mc) toy_acc_full = Accept /\
  (exists s, reached toy_z toy_mc too_late s /\ held s toy_acc_full) /\
  map contents (written toy_z toy_mc monitor_init too_late) = [[]; []; []].
Proof.
  split; [vm_compute; reflexivity|]. split.
  - exists (run_to too_late). split; [apply run_to_reached; vm_compute; reflexivity|].
    apply acc_held. vm_compute. reflexivity.
  - vm_compute. reflexivity.
Qed.

(** An object of the next period that arrives between the wipe and the writing is in the update of this one. *)
Example C43_interleaved_ex : map (λ u, (u_period u, map g_period (u_sths u)))
  (written toy_z toy_mc monitor_init [MClean; MWipe 6; MGossip toy_sth_full; MPublish 6]) = [("06", ["07"])].
Proof. vm_compute. reflexivity. Qed.

Example C43_ex : undisturbed toy_sth_full [MGossip toy_acc_full; MQueryCAs 7; MClean; MWipe 7] /\
  no_zero_con (g_p0 toy_sth_full) [MGossip toy_con; MGossip toy_sth_full; MGossip toy_acc_full; MQueryCAs 7; MClean; MWipe 7].
Proof.
  split.
  - intros e H. rewrite !elem_of_cons, elem_of_nil in H. destruct H as [-> |[-> |[-> |[-> |[]]]]]; split;
      try (intros m X; congruence); try (intros g [X|(f & u & X)]; try discriminate X; injection X as <-; discriminate).
    intros m X. injection X as <-. reflexivity.
  - intros g (e & H & X). rewrite !elem_of_cons, elem_of_nil in H.
    destruct X as [-> |(f & u & ->)]; intros T _; repeat (destruct H as [H|H]; [try discriminate H; injection H as ->; discriminate|]); done.
Qed.

(** C44: gossipers give their conflict proofs the current minute as period, so none is ever found. *)
Theorem C44_conflicts_ignored_refuted : forall (P : prims) z (c : mconf (P:=P)) l s e, reached z c l s ->
  (forall g, received l g -> g_type g = CON_INIT -> exists m st o1 o2, g = generate_con (pad2 m, st) o1 o2) ->
  forall m, m_acc s !! mkgid (pad2 m) ACC_FULL e = None ->
  (e ∈ mc_loggers c -> asks (query s m Sth (mc_loggers c)) e) /\ (e ∈ mc_cas c -> asks (query s m Rev (mc_cas c)) e).
Proof. exact @conflicts_ignored. Qed.
Print Assumptions C44_conflicts_ignored_refuted.

Theorem C44_published_anyway_refuted : forall (P : prims) z (c : mconf (P:=P)) l1 g l2 s m,
  reached z c (l1 ++ MGossip g :: l2) s ->
  (forall x, received (l1 ++ MGossip g :: l2) x -> g_type x = CON_INIT -> exists m' st o1 o2, x = generate_con (pad2 m', st) o1 o2) ->
  g_type g ∈ [STH_FULL; REV_FULL] -> g_period g = pad2 m -> undisturbed g l2 ->
  exists u, u ∈ written z c monitor_init ((l1 ++ MGossip g :: l2) ++ period_end m) /\ listed u g.
Proof. exact @published_anyway. Qed.
Print Assumptions C44_published_anyway_refuted.

(** The monitor holds a proof against logger 9100, publishes its head and queries it. *)
Example C44_refuted_ex : verify (mc_crypto toy_mc) toy_con = Accept /\
  exists s, reached toy_z toy_mc [MGossip toy_con; MGossip toy_sth_full] s /\ proof_against s "localhost:9100" /\
  map u_sths (written toy_z toy_mc monitor_init ([MGossip toy_con; MGossip toy_sth_full] ++ period_end 7)) = [[toy_sth_full]] /\
  asks (query s 7 Sth (mc_loggers toy_mc)) "localhost:9100".
Proof.
  split; [vm_compute; reflexivity|]. eexists. split; [apply run_to_reached; vm_compute; reflexivity|]. split_and!.
  - apply (con_against _ _ "07"). vm_compute. reflexivity.
  - vm_compute. reflexivity.
  - apply asked_both. split_and!; [set_solver|vm_compute; reflexivity|vm_compute; reflexivity].
Qed.

(** Exactly which proofs stop queries and publication. *)
Theorem C44_queried_exactly_partial : forall (P : prims) (c : mconf (P:=P)) s m e,
  (asks (query s m Sth (mc_loggers c)) e <->
   e ∈ mc_loggers c /\ m_acc s !! mkgid (pad2 m) ACC_FULL e = None /\ m_con s !! mkgid "0" CON_INIT e = None) /\
  (asks (query s m Rev (mc_cas c)) e <->
   e ∈ mc_cas c /\ m_acc s !! mkgid (pad2 m) ACC_FULL e = None /\ m_con s !! mkgid "0" CON_INIT e = None).
Proof. exact @asked_both. Qed.
Print Assumptions C44_queried_exactly_partial.

Theorem C44_not_queried_partial : forall (P : prims) z (c : mconf (P:=P)) s s' o m e,
  mstep z c s (MQueryLoggers m) = Some (s', o) \/ mstep z c s (MQueryCAs m) = Some (s', o) ->
  is_Some (m_acc s !! mkgid (pad2 m) ACC_FULL e) \/ is_Some (m_con s !! mkgid "0" CON_INIT e) -> ~ asks o e.
Proof. exact @not_queried. Qed.
Print Assumptions C44_not_queried_partial.

Theorem C44_withheld_partial : forall (P : prims) z (c : mconf (P:=P)) l s m e u g,
  reached z c l s -> is_Some (m_con s !! mkgid "0" CON_INIT e) ->
  written z c monitor_init (l ++ period_end m) = (written z c monitor_init l ++ [u])%list ->
  g ∈ u_sths u \/ g ∈ u_revs u -> g_p0 g <> e.
Proof. exact @withheld_written. Qed.
Print Assumptions C44_withheld_partial.

Definition zero_con : gobj := generate_con ("0", "t") (toy_init STH_INIT "7" "k1" "localhost:9100" "a" "") (toy_init STH_INIT "7" "k1" "localhost:9100" "b" "").
Example C44_ex : exists s, reached toy_z toy_mc [MGossip zero_con; MGossip toy_sth_full] s /\
  is_Some (m_con s !! mkgid "0" CON_INIT "localhost:9100") /\ is_Some (m_sth s !! get_id toy_sth_full).
Proof.
  eexists. split; [apply run_to_reached; vm_compute; reflexivity|].
  split; apply is_some_true; vm_compute; reflexivity.
Qed.

(** C45: in the first ten minutes of the hour the logger's own statement of the
    minute does not help. *)
Theorem C45_accused_anyway_refuted : forall (P : prims) z (c : mconf (P:=P)) (lc : lconf P) t root size m st, m < 10 ->
  exists s, mrun z c monitor_init [MReply Sth (lc_signer lc) None; MGossip (sth_object lc t root size m); MFire 0 m st] =
    Some (s, [MSend (accusation c m st (lc_signer lc))]) /\
    m_temp s !! mkgid (unpadded m) STH_INIT (lc_signer lc) = Some (sth_object lc t root size m).
Proof. exact @accused_anyway. Qed.
Print Assumptions C45_accused_anyway_refuted.

Theorem C45_not_accused_partial : forall (P : prims) z (c : mconf (P:=P)) l1 g l2 s f n m st s' o,
  reached z c (l1 ++ MGossip g :: l2) s ->
  f = Sth \/ f = Rev -> g_type g = init_type f -> g_period g = pad2 m ->
  (forall e, e ∈ l2 -> (forall g', carries e g' -> get_id g' <> get_id g) /\ forall m', e <> MWipe m') ->
  mstep z c s (MFire n m st) = Some (s', o) -> ~ (m_timers s !! n = Some (TAccuse (g_p0 g) f) /\ accuses o (g_p0 g)).
Proof. exact @not_accused. Qed.
Print Assumptions C45_not_accused_partial.

(** From minute 10 on the statements of loggers carry that period. *)
Theorem C45_logger_not_accused_partial : forall (P : prims) z (c : mconf (P:=P)) (lc : lconf P) t root size l1 l2 s n m st s' o,
  10 <= m -> let g := sth_object lc t root size m in
  reached z c (l1 ++ MGossip g :: l2) s ->
  (forall e, e ∈ l2 -> (forall g', carries e g' -> get_id g' <> get_id g) /\ forall m', e <> MWipe m') ->
  mstep z c s (MFire n m st) = Some (s', o) -> ~ (m_timers s !! n = Some (TAccuse (lc_signer lc) Sth) /\ accuses o (lc_signer lc)).
Proof. exact @logger_not_accused. Qed.
Print Assumptions C45_logger_not_accused_partial.

Example C45_ex : exists s,
  reached toy_z toy_mc ([MReply Sth "localhost:9100" None] ++ MGossip (sth_object toy_logger (mknow 17 "t") "r" 2 17) :: [MQueryLoggers 17]) s /\
  m_timers s !! 0 = Some (TAccuse "localhost:9100" Sth) /\ is_Some (mstep toy_z toy_mc s (MFire 0 17 "t")).
Proof.
  eexists. split; [apply run_to_reached; vm_compute; reflexivity|]. split; [vm_compute; reflexivity|].
  apply is_some_true. vm_compute. reflexivity.
Qed.

(** C64 *)
Theorem C64_accused_for_cause : forall (P : prims) z (c : mconf (P:=P)) l s o g,
  mrun z c monitor_init l = Some (s, o) -> MSend g ∈ o -> g_type g = ACC_INIT ->
  (exists m st, g = accusation c m st (g_p0 g)) /\ exists f r, MReply f (g_p0 g) r ∈ l /\ bad_answer z c f r.
Proof. exact @accused_cause0. Qed.
Print Assumptions C64_accused_for_cause.

Theorem C64_at_most_once : forall (P : prims) z (c : mconf (P:=P)) l s o x,
  mrun z c monitor_init l = Some (s, o) ->
  length (List.filter (accuses_one x) o) <= length (List.filter (answered_one x) l).
Proof. exact @count_accusations. Qed.
Print Assumptions C64_at_most_once.

Example C64_ex : exists s g, mrun toy_z toy_mc monitor_init [MReply Sth "localhost:9101" None; MFire 0 7 "t"] = Some (s, [MSend g]) /\
  g_type g = ACC_INIT /\ g_p0 g = "localhost:9101".
Proof. eexists _, _. split; [vm_compute; reflexivity|]. split; vm_compute; reflexivity. Qed.

(** C65 *)
Theorem C65_accusation_verifies : forall (P : prims) (c : mconf (P:=P)) m st e (cc : cconf P) pk,
  cc_sign_scheme (mc_crypto c) = "rsa" -> plain_id (cc_self (mc_crypto c)) = true ->
  e <> "" -> cc_sign_scheme cc = "rsa" -> cc_rsa_pubs cc !! cc_self (mc_crypto c) = Some pk ->
  rsa_check pk e (rsa_sign (cc_rsa_sec (mc_crypto c)) e) = true ->
  verify cc (accusation c m st e) = Accept.
Proof. exact @accusation_verifies. Qed.
Print Assumptions C65_accusation_verifies.

Example C65_ex : plain_id (cc_self (mc_crypto toy_mc)) = true /\ verify toy_mcc (accusation toy_mc 7 "t" "localhost:9101") = Accept.
Proof. split; vm_compute; reflexivity. Qed.

(** C66 *)
Theorem C66_forwarded : forall (P : prims) z (c : mconf (P:=P)) s l s' o g, mrun z c s l = Some (s', o) -> MSend g ∈ o ->
  (exists m st, g = accusation c m st (g_p0 g)) \/
  (verify (mc_crypto c) g = Accept /\ (exists f u, MReply f u (Some g) ∈ l) /\
   ((g_type g = STH_INIT /\ g_signer g ∈ mc_all_loggers c) \/ (g_type g = REV_INIT /\ g_signer g ∈ mc_all_cas c))).
Proof. exact @forwarded. Qed.
Print Assumptions C66_forwarded.

Theorem C66_good_answer_forwarded : forall (P : prims) z (c : mconf (P:=P)) s u g,
  verify (mc_crypto c) g = Accept -> g_type g = STH_INIT -> g_signer g ∈ mc_all_loggers c ->
  mstep z c s (MReply Sth u (Some g)) = Some (s, [MSend g]).
Proof. exact @good_answer_forwarded. Qed.
Print Assumptions C66_good_answer_forwarded.

Example C66_ex : exists s, mrun toy_z toy_mc monitor_init
  [MReply Sth "localhost:9100" (Some (toy_init STH_INIT "7" "k1" "localhost:9100" "a" ""))] =
  Some (s, [MSend (toy_init STH_INIT "7" "k1" "localhost:9100" "a" "")]).
Proof. eexists. vm_compute. reflexivity. Qed.

(** C67 *)
Theorem C67_stranger_kills_refuted : forall (P : prims) z (c : mconf (P:=P)) s f u g x,
  rsa_nokey_panics P = true -> cc_sign_scheme (mc_crypto c) = "rsa" ->
  is_init g -> g_s0 g <> "" -> g_p0 g <> "" -> rsasig_from_string (g_s0 g) = Some x -> cc_rsa_pubs (mc_crypto c) !! rs_id x = None ->
  mstep z c s (MReply f u (Some g)) = None.
Proof. exact @stranger_kills. Qed.
Print Assumptions C67_stranger_kills_refuted.

Example C67_refuted_ex : mrun toy_z toy_mc monitor_init
  [MReply Sth "localhost:9100" (Some (toy_init STH_INIT "7" "kx" "nobody" "a" ""))] = None.
Proof. vm_compute. reflexivity. Qed.

Theorem C67_survives_partial : forall (P : prims) z (c : mconf (P:=P)) s l,
  (forall f u g, MReply f u (Some g) ∈ l -> rsa_nokey_panics P = false \/ identities_known z c f g) ->
  exists s' o, mrun z c s l = Some (s', o).
Proof. exact @survives. Qed.
Print Assumptions C67_survives_partial.

Example C67_ex : identities_known toy_z toy_mc Sth (toy_init STH_INIT "7" "k1" "localhost:9100" "a" "").
Proof. exact (toy_identities toy_z). Qed.

(** C68 *)
Theorem C68_first_delta_kept_refuted : forall (P : prims) z (c : mconf (P:=P)) g1 g2 m st,
  g_type g1 = REV_FULL -> g_type g2 = REV_FULL -> g_p0 g1 = g_p0 g2 -> g1 <> g2 ->
  exists s, reached z c [MGossip g1; MFire 0 m st; MGossip g2; MFire 0 m st] s /\ m_timers s = [] /\
    m_crv s !! g_p0 g2 = Some (snd (srh_and_dcrv z g1)).
Proof. exact @first_delta_kept. Qed.
Print Assumptions C68_first_delta_kept_refuted.

Theorem C68_frozen_refuted : forall (P : prims) z (c : mconf (P:=P)) s l s' o ca v,
  mrun z c s l = Some (s', o) -> m_crv s !! ca = Some v -> m_crv s' !! ca = Some v.
Proof. exact @crv_frozen. Qed.
Print Assumptions C68_frozen_refuted.

(** What is known of it: the delta of some revocation object of that CA received. *)
Theorem C68_some_delta_partial : forall (P : prims) z (c : mconf (P:=P)) l s ca v, reached z c l s -> m_crv s !! ca = Some v ->
  exists g, received l g /\ g_type g = REV_FULL /\ g_p0 g = ca /\ v = snd (srh_and_dcrv z g).
Proof. exact @crv_from. Qed.
Print Assumptions C68_some_delta_partial.

(** C69 *)
Theorem C69_never_decodable_refuted : forall (P : prims) z (c : mconf (P:=P)) l s period body,
  reached z c l s -> request_update s period = Some body -> update_unmarshal body = None.
Proof. exact @never_decodable. Qed.
Print Assumptions C69_never_decodable_refuted.

Theorem C69_file_decodes_partial : forall u, update_unmarshal (update_marshal u) = Some u.
Proof. exact @update_roundtrip. Qed.
Print Assumptions C69_file_decodes_partial.

(** A client that takes off two further wrappings gets the update of the period, until another one is written under the same number. *)
Theorem C69_twice_decoded_partial : forall (P : prims) z (c : mconf (P:=P)) l s m l' s',
  reached z c l s -> reached z c (l ++ period_end m ++ l') s' -> MPublish m ∉ l' ->
  exists u body t text, written z c monitor_init (l ++ period_end m) = (written z c monitor_init l ++ [u])%list /\
    request_update s' (itoa (Z.of_nat m - mc_offset c)) = Some body /\
    parse_json body = Some (JStr t) /\ b64_decode t = Some text /\ update_unmarshal text = Some u.
Proof. exact @twice_decoded. Qed.
Print Assumptions C69_twice_decoded_partial.

Example C69_ex : exists s body, reached toy_z toy_mc busy s /\ request_update s "7" = Some body.
Proof.
  assert (is_Some (request_update (run_to busy) "7")) as [body B] by (apply is_some_true; vm_compute; reflexivity).
  exists (run_to busy), body. split; [apply run_to_reached; vm_compute; reflexivity|exact B].
Qed.
