(** C123 *)
From Verif Require Import Bytes Hex Json Types Crypto Verify Bitset Cert CertPool CTngExt Revocation Clock Prog Gossiper Network Overlap System SpecVerify SpecGossiper SpecNetwork SpecOverlap SpecAccuse SpecOverlapAccuse SpecSystem SpecSystemDetect SpecSystemAccuse SpecSystemSilent SystemAsk SystemSilent Toy RefuteSystem RefuteSystemAccuse RefuteSystemSilent.
From Verif Require Logger CA Monitor Client SpecClient.
From Verif Require Import RefuteLogger RefuteCA.
Open Scope string_scope.

(** C123: if the monitors of as many gossipers as the threshold get no good answer of an entity in a period, and nothing else of it, and no message
    or report is lost, then everybody convicts it: every gossiper, the monitors, and the clients that load an update of the period. *)
Theorem C123_silent_convicted : forall (P : prims) z x (S : sysconf P) T, honest_network (sy_gossipers S) T ->
  agg_correct P -> fast_perm P -> (forall sg : bls_sig P, bls_deser (bls_ser sg) = Some sg) ->
  forall q sec st lt ct, let W0 := world_init x S q sec st lt ct in
  forall e p As, accusations (sy_gossipers S) e p As -> forall l us, one_period l -> undisturbed_accusations z x S W0 e As l ->
  oquiescent (w_net (wrun z x S W0 l)) -> messages_arrived z x S W0 l -> reports_arrived z x S W0 l ->
  NoDup us -> length us = T -> (forall u, u ∈ us -> is_Some (sy_gossipers S !! u) /\ exists mon, unanswered z x S W0 e l mon u) ->
  (forall u y, u ∈ us -> on_nodes (w_net (wrun z x S W0 l)) !! u = Some y -> NoDup (accusation_signers p e (p_st y))) ->
  forall w c, sy_gossipers S !! w = Some c -> exists (y : gpool) full, on_nodes (w_net (wrun z x S W0 l)) !! w = Some y /\ e ∈ t_black (p_st y) /\
    g_type full = ACC_FULL /\ g_p0 full = e /\ verify (gc_crypto c) full = Accept /\ t_acc_full (p_st y) !! get_id full = Some full /\
    forall mc u' s, sy_monitors S !! gc_owner c = Some (mc, u') -> w_mons (wrun z x S W0 l) !! gc_owner c = Some s ->
      (exists full', Monitor.m_acc s !! get_id full = Some full' /\ g_type full' = ACC_FULL /\ g_p0 full' = e /\ g_period full' = g_period full) /\
      ((forall m', EMonitor (gc_owner c) (Monitor.MWipe m') ∉ l) -> forall m cl flag s', g_period full = pad2 m -> is_Some (sy_clients S !! cl) ->
        w_clients (wrun z x S W0 (l ++ period_end_and_load (gc_owner c) m cl ("Period_" ++ itoa (Z.of_nat m - Monitor.mc_offset mc)) flag)) !! cl = Some s' ->
        SpecClient.idle s' -> SpecClient.convicted s' e).
Proof. exact @silent_convicted. Qed.
Print Assumptions C123_silent_convicted.

(** One monitor: it accuses the entity. *)
Theorem C123_unanswered_accuses : forall (P : prims) z x (S : sysconf P) W0 e l mon u, unanswered z x S W0 e l mon u ->
  exists a, timer_sends z x S W0 l mon u a /\ g_type a = ACC_INIT /\ g_p0 a = e.
Proof. exact @unanswered_sends. Qed.
Print Assumptions C123_unanswered_accuses.

Example C123_ex : let W0 := start "00" in honest_network (sy_gossipers toy_sys) 2 /\ accusations (sy_gossipers toy_sys) lg "00" [accusation_1; accusation_2] /\ one_period bad3 /\
  undisturbed_accusations toy_z toy_x toy_sys W0 lg [accusation_1; accusation_2] bad3 /\ oquiescent (w_net (wrun toy_z toy_x toy_sys W0 bad3)) /\
  messages_arrived toy_z toy_x toy_sys W0 bad3 /\ reports_arrived toy_z toy_x toy_sys W0 bad3 /\
  (forall u, u ∈ ["g1"; "g2"] -> is_Some (sy_gossipers toy_sys !! u) /\ exists mon, unanswered toy_z toy_x toy_sys W0 lg bad3 mon u) /\
  (forall u y, u ∈ ["g1"; "g2"] -> on_nodes (w_net (wrun toy_z toy_x toy_sys W0 bad3)) !! u = Some y -> NoDup (accusation_signers "00" lg (p_st y))) /\
  (forall mon m, EMonitor mon (Monitor.MWipe m) ∉ bad3).
Proof. destruct bad3_hypotheses as (H1 & H2 & H3 & H4 & H5 & H6 & H7 & _ & H9 & H10).
  exact (conj H1 (conj H2 (conj H3 (conj H4 (conj H5 (conj H6 (conj H7 (conj bad3_unanswered (conj H9 H10))))))))). Qed.

(** A query of a monitor always ends: as long as neither it nor its result is under way any more, a result has reached the monitor, whatever was
    lost ([None]: that there was no answer). *)
Theorem C123_query_ends : forall (P : prims) z x (S : sysconf P) W0 l1 l2 mon f e, f <> Acc -> open_query (wrun z x S W0 l1) mon f e ->
  ~ open_query (wrun z x S W0 (l1 ++ l2)) mon f e ->
  exists la i m lb r, l2 = (la ++ EDeliver i m :: lb)%list /\ w_mail (wrun z x S W0 (l1 ++ la)) !! i = Some (Response mon f e r).
Proof. exact @query_ends. Qed.
Print Assumptions C123_query_ends.

(** If no process of that name runs and nobody forges an answer, the result is that there is no answer. *)
Theorem C123_down_no_answer : forall (P : prims) z x (S : sysconf P) W0 l1 l2 mon f e, f <> Acc -> open_query (wrun z x S W0 l1) mon f e ->
  not_running (wrun z x S W0 l1) e -> (forall g, Response mon f e (Some g) ∉ w_mail (wrun z x S W0 l1)) -> (forall g, EInject (Response mon f e (Some g)) ∉ l2) ->
  ~ open_query (wrun z x S W0 (l1 ++ l2)) mon f e ->
  exists la i m lb, l2 = (la ++ EDeliver i m :: lb)%list /\ w_mail (wrun z x S W0 (l1 ++ la)) !! i = Some (Response mon f e None).
Proof. exact @down_query_fails. Qed.
Print Assumptions C123_down_no_answer.

(** A query that is lost, and one to a logger that was never started. *)
Example C123_ex_lost : let l1 := [EMonitor "m1" (Monitor.MQueryLoggers 0)] in let l2 := [ELose 0; EDeliver 0 0] in
  w_mail (wrun toy_z toy_x toy_sys (start "00") l1) = [Query "m1" Sth lg] /\
  w_mail (wrun toy_z toy_x toy_sys (start "00") (l1 ++ [ELose 0])) = [Response "m1" Sth lg None] /\
  w_mail (wrun toy_z toy_x toy_sys (start "00") (l1 ++ l2)) = [].
Proof. vm_compute. auto. Qed.
Example C123_ex_down : let S := mksys (sy_gossipers toy_sys) ∅ (sy_cas toy_sys) (sy_monitors toy_sys) (sy_clients toy_sys) in
  let W0 := world_init toy_x S "00" "s" "t" (λ _, (0, 0)%Z) (λ _, (0%Z, 0%Z, toy_draw 1 "a", toy_draw 2 "b")) in
  let l1 := [EMonitor "m1" (Monitor.MQueryLoggers 0)] in
  w_mail (wrun toy_z toy_x S W0 l1) = [Query "m1" Sth lg] /\ not_running (wrun toy_z toy_x S W0 l1) lg /\
  w_mail (wrun toy_z toy_x S W0 (l1 ++ [EDeliver 0 0])) = [Response "m1" Sth lg None] /\
  w_mail (wrun toy_z toy_x S W0 (l1 ++ [EDeliver 0 0; EDeliver 0 0])) = [].
Proof. vm_compute. auto. Qed.
