(** C121 *)
From Verif Require Import Bytes Hex Json Types Crypto Verify Bitset CTngExt Clock Revocation Prog Gossiper Network Overlap System SpecVerify SpecGossiper SpecCodec SpecCA SpecSystem SpecSystemCA SystemCA Toy RefuteSystem RefuteSystemCA.
From Verif Require Logger CA Monitor Client.
From Verif Require Import RefuteLogger RefuteCA.
Open Scope string_scope.

(** C121: a CA that runs the code in normal mode (type 0), ends at most one period for each minute, is asked only after it has made the object
    of the minute, and whose revocations the monitors have recorded, is never convicted - REFUTED: it is, by all gossipers, if it ends a period in
    minute 59 and is asked in minute 0. *)
Theorem C121_refuted : exists (S : sysconf toy) lt ct e c l,
  let W0 := world_init toy_x S "00" "s" "t" lt ct in
  ca_identity S e c /\ (ct e).1.1.1 = 0%Z /\ outsiders_quiet e l /\ NoDup (period_ends e l) /\ revokes_ok e l /\
  ca_timely toy_z toy_x S W0 (λ n, Nat.modulo (Datatypes.S n) 60) e l /\ records_right toy_z toy_x S W0 e l /\
  size (sy_gossipers S) = 2 /\
  forall u y, on_nodes (w_net (wrun toy_z toy_x S W0 l)) !! u = Some y -> e ∈ t_black (p_st y).
Proof. exact hour_convicted. Qed.
Print Assumptions C121_refuted.

(** It holds if the CA is never asked in minute 0. *)
Theorem C121_normal_ca_partial {P : prims} z x (S : sysconf P) a b d lt ct e c l :
  let W0 := world_init x S a b d lt ct in
  gzip_ok z -> ca_identity S e c -> (ct e).1.1.1 = 0%Z -> outsiders_quiet e l -> NoDup (period_ends e l) -> revokes_ok e l ->
  ca_timely z x S W0 Datatypes.S e l -> records_right z x S W0 e l ->
  unconvicted e (wrun z x S W0 l).
Proof. exact (@normal_ca_safe P z x S a b d lt ct e c l). Qed.
Print Assumptions C121_normal_ca_partial.

(** The monitors must have recorded what the CA revoked: if what a monitor has recorded (the change in the object itself, if it has recorded
    nothing) is not what the CA had revoked when it made the object, then the monitor rejects the object and sets off an accusation. *)
Theorem C121_unrecorded_accused {P : prims} z x (S : sysconf P) a b d lt ct e c l :
  let W0 := world_init x S a b d lt ct in
  gzip_ok z -> ca_identity S e c -> (ct e).1.1.1 = 0%Z -> outsiders_quiet e l -> revokes_ok e l -> ca_timely z x S W0 Datatypes.S e l ->
  forall l1 i n l2 mon g c' u s la rs m lb sa pk,
  (forall t t', h_sha256 P t = h_sha256 P t' -> t = t') ->
  cc_rsa_pubs (Monitor.mc_crypto c') !! e = Some pk -> (forall t t', rsa_check pk t' (rsa_sign (CA.cac_key c) t) = true -> t' = t) ->
  l = (l1 ++ EDeliver i n :: l2)%list -> w_mail (wrun z x S W0 l1) !! i = Some (Response mon Rev e (Some g)) ->
  sy_monitors S !! mon = Some (c', u) -> w_mons (wrun z x S W0 l1) !! mon = Some s ->
  l1 = (la ++ ECaPeriod e rs m :: lb)%list -> w_cas (wrun z x S W0 (la ++ [ECaPeriod e rs m])) !! e = Some sa ->
  CA.a_rev sa !! unpadded (Datatypes.S m) = Some g ->
  bs_marshal (default (snd (srh_and_dcrv z g)) (Monitor.m_crv s !! e)) <> bs_marshal (v_cur (CA.a_crv sa)) ->
  exists s', w_mons (wrun z x S W0 (l1 ++ [EDeliver i n])) !! mon = Some s' /\ Monitor.m_timers s' = (Monitor.m_timers s ++ [Monitor.TAccuse e Rev])%list /\
    Monitor.m_rev s' = Monitor.m_rev s /\ Monitor.m_crv s' = Monitor.m_crv s.
Proof. exact (@unrecorded_accused P z x S a b d lt ct e c l). Qed.
Print Assumptions C121_unrecorded_accused.

(** A monitor gets the first object of a CA. *)
Example C121_ex : ca_identity toy_sys ca (CA.mkcaconf (P:=toy) ca [lg] ca "k3" "pk") /\ gzip_ok toy_z /\
  outsiders_quiet ca asked /\ NoDup (period_ends ca asked) /\ revokes_ok ca asked /\ ca_timely toy_z toy_x toy_sys (start "12") Datatypes.S ca asked /\
  records_right toy_z toy_x toy_sys (start "12") ca asked.
Proof. exact (conj toy_ca_identity (conj toy_gzip asked_facts)). Qed.

(** A monitor that missed the first object of a CA gets the second. *)
Example C121_ex_missed : let l := (missed ++ [EDeliver 0 13])%list in exists s sa,
  outsiders_quiet ca l /\ revokes_ok ca l /\ ca_timely toy_z toy_x toy_sys (start "12") Datatypes.S ca l /\
  w_mail (wrun toy_z toy_x toy_sys (start "12") missed) !! 0 = Some (Response "m1" Rev ca (Some second_object)) /\
  w_mons (wrun toy_z toy_x toy_sys (start "12") missed) !! "m1" = Some s /\
  missed = ([ECaPeriod ca [3%N; 5%N] 11] ++ ECaPeriod ca [] 12 :: [EMonitor "m1" (Monitor.MQueryCAs 13); EDeliver 0 13])%list /\
  w_cas (wrun toy_z toy_x toy_sys (start "12") ([ECaPeriod ca [3%N; 5%N] 11] ++ [ECaPeriod ca [] 12])) !! ca = Some sa /\
  CA.a_rev sa !! unpadded 13 = Some second_object /\
  bs_marshal (default (snd (srh_and_dcrv toy_z second_object)) (Monitor.m_crv s !! ca)) <> bs_marshal (v_cur (CA.a_crv sa)) /\
  (forall t t', h_sha256 toy t = h_sha256 toy t' -> t = t') /\
  (forall t t', rsa_check (p:=toy) "k3" t' (rsa_sign (p:=toy) "k3" t) = true -> t' = t).
Proof. exact missed_facts. Qed.
