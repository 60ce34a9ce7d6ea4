(** C120 *)
From Verif Require Import Bytes Hex Json Types Crypto Verify Bitset Cert CertPool CTngExt Revocation Clock Prog Gossiper Network Overlap System SpecVerify SpecGossiper SpecNetwork SpecOverlap SpecAccuse SpecOverlapAccuse SpecSystem SpecSystemDetect SpecSystemAccuse SystemAccuse Toy RefuteSystem RefuteSystemAccuse.
From Verif Require Logger CA Monitor Client SpecClient.
From Verif Require Import RefuteLogger RefuteCA.
Open Scope string_scope.

(** C120: if the monitors of as many gossipers as the threshold accuse an entity, and no message or report is lost, then every gossiper
    blacklists it and holds a verified aggregate of the accusations, its monitor holds one too, and a client that loads the update of the
    period from such a monitor either refuses it or convicts the entity. *)
Theorem C120_accused_convicted : forall (P : prims) z x (S : sysconf P) T, honest_network (sy_gossipers S) T ->
  agg_correct P -> fast_perm P -> (forall sg : bls_sig P, bls_deser (bls_ser sg) = Some sg) ->
  forall q sec st lt ct, let W0 := world_init x S q sec st lt ct in
  forall e p As, accusations (sy_gossipers S) e p As -> forall l us, one_period l -> undisturbed_accusations z x S W0 e As l ->
  oquiescent (w_net (wrun z x S W0 l)) -> messages_arrived z x S W0 l -> reports_arrived z x S W0 l ->
  NoDup us -> length us = T -> (forall u, u ∈ us -> is_Some (sy_gossipers S !! u) /\ exists mon a, a ∈ As /\ timer_sends z x S W0 l mon u a) ->
  (forall u y, u ∈ us -> on_nodes (w_net (wrun z x S W0 l)) !! u = Some y -> NoDup (accusation_signers p e (p_st y))) ->
  forall w c, sy_gossipers S !! w = Some c -> exists (y : gpool) full, on_nodes (w_net (wrun z x S W0 l)) !! w = Some y /\ e ∈ t_black (p_st y) /\
    g_type full = ACC_FULL /\ g_p0 full = e /\ verify (gc_crypto c) full = Accept /\ t_acc_full (p_st y) !! get_id full = Some full /\
    forall mc u' s, sy_monitors S !! gc_owner c = Some (mc, u') -> w_mons (wrun z x S W0 l) !! gc_owner c = Some s ->
      (exists full', Monitor.m_acc s !! get_id full = Some full' /\ g_type full' = ACC_FULL /\ g_p0 full' = e /\ g_period full' = g_period full) /\
      ((forall m', EMonitor (gc_owner c) (Monitor.MWipe m') ∉ l) -> forall m cl flag s', g_period full = pad2 m -> is_Some (sy_clients S !! cl) ->
        w_clients (wrun z x S W0 (l ++ period_end_and_load (gc_owner c) m cl ("Period_" ++ itoa (Z.of_nat m - Monitor.mc_offset mc)) flag)) !! cl = Some s' ->
        SpecClient.idle s' -> SpecClient.convicted s' e).
Proof. exact @accused_convicted. Qed.
Print Assumptions C120_accused_convicted.

(** Conversely a gossiper that blacklists the entity has stored threshold fragments, all of gossipers at which an accusation arrived. *)
Theorem C120_convicted_accused : forall (P : prims) z x (S : sysconf P) T, honest_network (sy_gossipers S) T ->
  agg_correct P -> fast_perm P -> (forall sg : bls_sig P, bls_deser (bls_ser sg) = Some sg) ->
  forall q sec st lt ct, let W0 := world_init x S q sec st lt ct in
  forall e p As, accusations (sy_gossipers S) e p As -> forall l v (y : gpool), one_period l -> undisturbed_accusations z x S W0 e As l ->
  on_nodes (w_net (wrun z x S W0 l)) !! v = Some y -> e ∈ t_black (p_st y) ->
  T <= length (accusation_signers p e (p_st y)) /\
  forall u, u ∈ accusation_signers p e (p_st y) -> is_Some (sy_gossipers S !! u) /\ exists a, a ∈ As /\ arrives z x S W0 l (ToGossip u a).
Proof. exact @convicted_accused. Qed.
Print Assumptions C120_convicted_accused.

Example C120_ex : let W0 := start "00" in honest_network (sy_gossipers toy_sys) 2 /\ accusations (sy_gossipers toy_sys) lg "00" [accusation_1; accusation_2] /\ one_period bad3 /\
  undisturbed_accusations toy_z toy_x toy_sys W0 lg [accusation_1; accusation_2] bad3 /\ oquiescent (w_net (wrun toy_z toy_x toy_sys W0 bad3)) /\
  messages_arrived toy_z toy_x toy_sys W0 bad3 /\ reports_arrived toy_z toy_x toy_sys W0 bad3 /\
  (forall u, u ∈ ["g1"; "g2"] -> is_Some (sy_gossipers toy_sys !! u) /\ exists mon a, a ∈ [accusation_1; accusation_2] /\ timer_sends toy_z toy_x toy_sys W0 bad3 mon u a) /\
  (forall u y, u ∈ ["g1"; "g2"] -> on_nodes (w_net (wrun toy_z toy_x toy_sys W0 bad3)) !! u = Some y -> NoDup (accusation_signers "00" lg (p_st y))) /\
  (forall mon m, EMonitor mon (Monitor.MWipe m) ∉ bad3).
Proof. exact bad3_hypotheses. Qed.

Example C120_ex_client : exists s, w_clients (wrun toy_z toy_x toy_sys (start "00") (bad3 ++ period_end_and_load "m2" 0 "c1" "Period_0" true)) !! "c1" = Some s /\
  SpecClient.idle s /\ SpecClient.convicted s lg.
Proof. exact bad3_client. Qed.
