(** C103 *)
From Verif Require Import Bytes Hex Json Types Crypto Verify Bitset Cert CertPool CTngExt Revocation Clock Prog Gossiper Network Overlap System SpecVerify SpecGossiper SpecNetwork SpecOverlap SpecDetect SpecSystem SpecSystemDetect SystemDetect.
From Verif Require Logger CA Monitor Client SpecClient.
From Verif Require Import RefuteSystem RefuteSystemDetect RefuteCA Toy.
Open Scope string_scope.

(** C103: conflicting statements given to two gossipers in one period, each of which gets only one version, are found out by the whole
    system: every gossiper blacklists the entity and has a proof, the monitor of every gossiper has the proof, and a client that
    loads the update this monitor writes at the end of the period has convicted the entity (unless the client refused
    the update or waits for a lock). *)
Theorem C103_found_out : forall (P : prims) z x (S : sysconf P), connected (sy_gossipers S) -> forall p sec st lt ct,
  let W0 := world_init x S p sec st lt ct in
  forall a b l u v, equivocation (sy_gossipers S) a b -> one_period l ->
  (forall w g, arrives z x S W0 l (ToGossip w g) -> harmless (sy_gossipers S) a g) -> one_version_given z x S W0 l a ->
  arrives z x S W0 l (ToGossip u a) -> arrives z x S W0 l (ToGossip v b) -> is_Some (sy_gossipers S !! u) -> is_Some (sy_gossipers S !! v) ->
  oquiescent (w_net (wrun z x S W0 l)) -> reports_arrived z x S W0 l ->
  forall w c, sy_gossipers S !! w = Some c -> exists (y : gpool) con, on_nodes (w_net (wrun z x S W0 l)) !! w = Some y /\ g_p0 a ∈ t_black (p_st y) /\
    g_type con = CON_INIT /\ g_p0 con = g_p0 a /\ verify (gc_crypto c) con = Accept /\ t_con_init (p_st y) !! get_id con = Some con /\
    forall mc u' s, sy_monitors S !! gc_owner c = Some (mc, u') -> w_mons (wrun z x S W0 l) !! gc_owner c = Some s ->
      (exists con', Monitor.m_con s !! get_id con = Some con' /\ g_type con' = CON_INIT /\ g_p0 con' = g_p0 a /\ g_period con' = g_period con) /\
      ((forall m', EMonitor (gc_owner c) (Monitor.MWipe m') ∉ l) -> forall m cl flag s', g_period con = pad2 m -> is_Some (sy_clients S !! cl) ->
        w_clients (wrun z x S W0 (l ++ period_end_and_load (gc_owner c) m cl ("Period_" ++ itoa (Z.of_nat m - Monitor.mc_offset mc)) flag)) !! cl = Some s' ->
        SpecClient.idle s' -> SpecClient.convicted s' (g_p0 a)).
Proof. exact @found_out. Qed.
Print Assumptions C103_found_out.

(** A logger of type 1 that tells two monitors different things satisfies the hypotheses; ... *)
Example C103_found_out_example : connected (sy_gossipers toy_sys) /\ equivocation (sy_gossipers toy_sys) head_a head_b /\ one_period split_world /\
  (forall w g, arrives toy_z toy_x toy_sys split_start split_world (ToGossip w g) -> harmless (sy_gossipers toy_sys) head_a g) /\
  one_version_given toy_z toy_x toy_sys split_start split_world head_a /\
  arrives toy_z toy_x toy_sys split_start split_world (ToGossip "g1" head_a) /\ arrives toy_z toy_x toy_sys split_start split_world (ToGossip "g2" head_b) /\
  is_Some (sy_gossipers toy_sys !! "g1") /\ is_Some (sy_gossipers toy_sys !! "g2") /\ oquiescent (w_net (sys_run split_start split_world)) /\
  reports_arrived toy_z toy_x toy_sys split_start split_world /\ (forall mon m, EMonitor mon (Monitor.MWipe m) ∉ split_world).
Proof. exact split_hypotheses. Qed.

(** ... and the client ends up convicting it. *)
Example C103_client_example : exists s, w_clients (sys_run split_start (split_world ++ period_end_and_load "m2" 12 "c1" "Period_12" true)) !! "c1" = Some s /\
  SpecClient.idle s /\ SpecClient.convicted s lg.
Proof. exact split_client. Qed.
