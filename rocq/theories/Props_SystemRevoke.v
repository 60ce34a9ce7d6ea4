(** C124 *)
From Verif Require Import Bytes Hex Json Types Crypto Verify Bitset Cert CertPool CTngExt Revocation Clock Prog Gossiper Network Overlap System SpecVerify SpecGossiper SpecCodec SpecCA SpecNetwork SpecOverlap SpecSystem SpecSystemDetect SpecSystemDeliver SystemRevoke.
From Verif Require Logger CA Monitor Client SpecClient.
From Verif Require Import RefuteSystem RefuteSystemDeliver RefuteSystemCA RefuteSystemRevoke RefuteLogger RefuteCA Toy.
Open Scope string_scope.

(** C124: the first revocation object a CA makes revokes exactly what the CA has revoked until then, and everybody with the CA's key who has
    no vector of the CA yet finds that its signed hash fits. *)
Theorem C124_first_object : forall (P : prims) (z : gzip) (x : CA.x509lib) (S : sysconf P) e c cc, sy_cas S !! e = Some (c, cc) ->
  forall a b d lt ct la rs m, let W0 := world_init x S a b d lt ct in gzip_ok z ->
  (forall rs' m', ECaPeriod e rs' m' ∉ la) -> (forall i, ERevoke e i ∈ la \/ i ∈ rs -> index_ok i) ->
  exists sa r, w_cas (wrun z x S W0 (la ++ [ECaPeriod e rs m])) !! e = Some sa /\ CA.a_rev sa !! unpadded (Datatypes.S m) = Some r /\
    g_type r = REV_INIT /\ g_p0 r = CA.cac_signer c /\ g_period r = unpadded (Datatypes.S m) /\
    (forall i, revokes (snd (srh_and_dcrv z r)) i <-> i ∈ rs \/ ERevoke e i ∈ la) /\
    (plain_id (CA.cac_self c) = true -> forall (cc' : cconf P) pk, cc_rsa_pubs cc' !! CA.cac_self c = Some pk -> (forall t, rsa_check pk t (rsa_sign (CA.cac_key c) t) = true) ->
       verify_srh cc' (fst (srh_and_dcrv z r)) (snd (srh_and_dcrv z r)) None (g_period r) = Accept).
Proof. exact @first_object. Qed.
Print Assumptions C124_first_object.

Example C124_first_ex : sy_cas toy_sys !! ca = Some (CA.mkcaconf (P:=toy) ca [lg] ca "k3" "pk", sys_cc ca "k3" 0) /\ gzip_ok toy_z /\ index_ok 3 /\ index_ok 7 /\
  (forall rs m, ECaPeriod ca rs m ∉ [ERevoke ca 3]) /\ (forall i, ERevoke ca i ∈ [ERevoke ca 3] \/ i ∈ [7%N] -> index_ok i) /\ plain_id ca = true.
Proof.
  split; [reflexivity|]. split; [exact toy_gzip|]. split; [done|]. split; [done|]. split; [intros rs m H%elem_of_list_singleton; discriminate|]. split; [|reflexivity].
  intros i [[= ->]%elem_of_list_singleton| ->%elem_of_list_singleton]; done.
Qed.

(** Once a client has loaded the update of a period in which a revocation object of a CA it had nothing of was gossiped, it accepts no certificate
    that the object revokes, whatever happens afterwards - whoever loses messages, lies or misbehaves, as long as the client's process runs. *)
Theorem C124_revoked_rejected : forall (P : prims) (z : gzip) (x : CA.x509lib) (S : sysconf P) T p sec st lt ct Gs l,
  let W0 := world_init x S p sec st lt ct in let cfgs := sy_gossipers S in
  honest_network cfgs T -> valid_statements cfgs p Gs -> agg_correct P -> fast_perm P -> (forall sg : bls_sig P, bls_deser (bls_ser sg) = Some sg) ->
  (forall u c, cfgs !! u = Some c -> NoDup (gc_neighbours c)) -> T <= 2 \/ no_fragment_twice p (w_net (wrun z x S W0 l)) Gs ->
  one_period l -> clocks_in p l -> monitors_undisturbed l -> (forall w h, arrives z x S W0 l (ToGossip w h) -> h ∈ Gs) ->
  oquiescent (w_net (wrun z x S W0 l)) -> reports_arrived z x S W0 l ->
  forall w c mc mu s, cfgs !! w = Some c -> sy_monitors S !! gc_owner c = Some (mc, mu) -> w_mons (wrun z x S W0 l) !! gc_owner c = Some s ->
  (forall m, EMonitor (gc_owner c) (Monitor.MWipe m) ∈ l -> pad2 m = p) ->
  forall m cl cc sc flag, p = pad2 m -> sy_clients S !! cl = Some cc -> knows_gossipers cfgs cc -> w_clients (wrun z x S W0 l) !! cl = Some sc -> SpecClient.idle sc ->
  (forall h, h ∈ Gs -> usable z cc sc h) ->
  forall u r crt, arrives z x S W0 l (ToGossip u r) -> is_Some (cfgs !! u) -> g_type r = REV_INIT -> Client.cl_crv sc !! g_p0 r = None ->
  c_issuer_cn crt = g_p0 r -> SpecClient.revoked_in (snd (srh_and_dcrv z r)) crt ->
  let l' := (l ++ period_end_and_load (gc_owner c) m cl ("Period_" ++ itoa (Z.of_nat m - Monitor.mc_offset mc)) flag)%list in
  is_Some (w_clients (wrun z x S W0 l') !! cl) /\
  forall l2 s2, w_clients (wrun z x S W0 (l' ++ l2)) !! cl = Some s2 ->
    Client.check_certificate cc s2 crt <> Accept /\
    ((forall i, i ∈ SpecClient.relied_on crt -> SpecClient.harmless cc s2 i) -> Client.check_certificate cc s2 crt = Reject).
Proof. exact @revoked_rejected. Qed.
Print Assumptions C124_revoked_rejected.

Example C124_ex : honest_network (sy_gossipers toy_sys) 2 /\ valid_statements (sy_gossipers toy_sys) "12" revoke_said /\
  (forall u c, sy_gossipers toy_sys !! u = Some c -> NoDup (gc_neighbours c)) /\ one_period revoke_world /\ clocks_in "12" revoke_world /\ monitors_undisturbed revoke_world /\
  (forall w h, arrives toy_z toy_x toy_sys (start "12") revoke_world (ToGossip w h) -> h ∈ revoke_said) /\
  oquiescent (w_net (sys_run (start "12") revoke_world)) /\ reports_arrived toy_z toy_x toy_sys (start "12") revoke_world /\
  arrives toy_z toy_x toy_sys (start "12") revoke_world (ToGossip "g1" one_revoked) /\ arrives toy_z toy_x toy_sys (start "12") revoke_world (ToGossip "g2" good_head) /\
  is_Some (w_mons (sys_run (start "12") revoke_world) !! "m2") /\ w_clients (sys_run (start "12") revoke_world) !! "c1" = Some cl0 /\
  (forall mon m, EMonitor mon (Monitor.MWipe m) ∉ revoke_world) /\
  knows_gossipers (sy_gossipers toy_sys) (sys_cc "c1" "" 0) /\ (forall h, h ∈ revoke_said -> usable toy_z (sys_cc "c1" "" 0) cl0 h).
Proof. exact revoke_hypotheses. Qed.
Example C124_ex_revoked : Client.cl_crv cl0 !! g_p0 one_revoked = None /\ c_issuer_cn issued_cert = g_p0 one_revoked /\
  SpecClient.revoked_in (snd (srh_and_dcrv toy_z one_revoked)) issued_cert.
Proof. exact revoke_revoked. Qed.
