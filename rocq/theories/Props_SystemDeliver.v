(** C112, C113 *)
From Verif Require Import Bytes Hex Json Types Crypto Verify Bitset Cert CertPool CTngExt Revocation Clock Prog Gossiper Network Overlap System SpecVerify SpecGossiper SpecNetwork SpecOverlap SpecSystem SpecSystemDetect SpecSystemDeliver SystemDeliver.
From Verif Require Logger CA Monitor Client SpecClient.
From Verif Require Import ToyFacts RefuteNetwork RefuteSystem RefuteSystemDetect RefuteSystemDeliver RefuteCA Toy.
Open Scope string_scope.

(** C112: in a period in which the gossipers are told one version of each tree head and revocation object, the whole system delivers
    all of them if the threshold is at most two or no gossiper has stored a fragment twice: whatever the interleaving of handlers, messages, monitors, loggers and CAs, once everything has come to rest
    every monitor has a threshold-signed aggregate of every statement told to any gossiper, with the same content and
    acceptable to everybody who has the gossipers' keys; no monitor has a proof of misbehaviour or of inactivity; and a client
    that loads the update a monitor writes at the end of the period applies all of it, records every tree head and
    the revocation vector of every CA it did not know, and convicts nobody. *)
Theorem C112_delivered : forall (P : prims) (z : gzip) (x : CA.x509lib) (S : sysconf P) T p sec st lt ct Gs l,
  let W0 := world_init x S p sec st lt ct in let cfgs := sy_gossipers S in
  honest_network cfgs T -> valid_statements cfgs p Gs -> agg_correct P -> fast_perm P -> (forall sg : bls_sig P, bls_deser (bls_ser sg) = Some sg) ->
  (forall u c, cfgs !! u = Some c -> NoDup (gc_neighbours c)) -> T <= 2 \/ no_fragment_twice p (w_net (wrun z x S W0 l)) Gs ->
  one_period l -> clocks_in p l -> monitors_undisturbed l -> (forall w h, arrives z x S W0 l (ToGossip w h) -> h ∈ Gs) ->
  oquiescent (w_net (wrun z x S W0 l)) -> reports_arrived z x S W0 l ->
  forall w c mc mu s, cfgs !! w = Some c -> sy_monitors S !! gc_owner c = Some (mc, mu) -> w_mons (wrun z x S W0 l) !! gc_owner c = Some s ->
  (forall m, EMonitor (gc_owner c) (Monitor.MWipe m) ∈ l -> pad2 m = p) ->
  (forall i, Monitor.m_con s !! i = None /\ Monitor.m_acc s !! i = None) /\
  (forall u g, arrives z x S W0 l (ToGossip u g) -> is_Some (cfgs !! u) ->
     exists full, mon_table s g !! mkgid p (full_name g) (g_p0 g) = Some full /\ g_type full = full_name g /\ g_p1 full = g_p1 g /\ g_p2 full = g_p2 g /\
       forall cc, knows_gossipers cfgs cc -> verify cc full = Accept) /\
  forall m cl cc sc flag, p = pad2 m -> sy_clients S !! cl = Some cc -> knows_gossipers cfgs cc -> w_clients (wrun z x S W0 l) !! cl = Some sc -> SpecClient.idle sc ->
    (forall h, h ∈ Gs -> usable z cc sc h) ->
    exists s', w_clients (wrun z x S W0 (l ++ period_end_and_load (gc_owner c) m cl ("Period_" ++ itoa (Z.of_nat m - Monitor.mc_offset mc)) flag)) !! cl = Some s' /\
      SpecClient.idle s' /\ (forall e, SpecClient.convicted s' e <-> SpecClient.convicted sc e) /\
      forall u g, arrives z x S W0 l (ToGossip u g) -> is_Some (cfgs !! u) ->
        (g_type g = STH_INIT -> forall y, Client.head_of g = Some y -> Client.cl_sth s' !! (g_p0 g ++ "@" ++ p) = Some (sth_root y)) /\
        (g_type g = REV_INIT -> Client.cl_crv s' !! g_p0 g = Some (default (snd (srh_and_dcrv z g)) (Client.cl_crv sc !! g_p0 g))).
Proof. exact @statements_delivered. Qed.
Print Assumptions C112_delivered.

(** The run of the small system satisfies the hypotheses. *)
Example C112_laws : agg_correct toy /\ fast_perm toy /\ (forall sg : bls_sig toy, bls_deser (bls_ser sg) = Some sg).
Proof. exact (conj toy_agg (conj toy_perm toy_deser)). Qed.
Example C112_no_fragment_twice : no_fragment_twice "12" (w_net (sys_run (start "12") deliver_world)) two_said.
Proof. exact deliver_no_twice. Qed.
Example C112_delivered_example : honest_network (sy_gossipers toy_sys) 2 /\ valid_statements (sy_gossipers toy_sys) "12" two_said /\
  (forall u c, sy_gossipers toy_sys !! u = Some c -> NoDup (gc_neighbours c)) /\ one_period deliver_world /\ clocks_in "12" deliver_world /\ monitors_undisturbed deliver_world /\
  (forall w h, arrives toy_z toy_x toy_sys (start "12") deliver_world (ToGossip w h) -> h ∈ two_said) /\
  oquiescent (w_net (sys_run (start "12") deliver_world)) /\ reports_arrived toy_z toy_x toy_sys (start "12") deliver_world /\
  arrives toy_z toy_x toy_sys (start "12") deliver_world (ToGossip "g1" small_rev) /\ arrives toy_z toy_x toy_sys (start "12") deliver_world (ToGossip "g2" good_head) /\
  is_Some (w_mons (sys_run (start "12") deliver_world) !! "m2") /\ w_clients (sys_run (start "12") deliver_world) !! "c1" = Some cl0 /\
  (forall mon m, EMonitor mon (Monitor.MWipe m) ∉ deliver_world) /\
  knows_gossipers (sy_gossipers toy_sys) (sys_cc "c1" "" 0) /\ (forall h, h ∈ two_said -> usable toy_z (sys_cc "c1" "" 0) cl0 h).
Proof. exact deliver_hypotheses. Qed.

(** C113: after such a period a client that loads the update of any monitor accepts every certificate that carries one of the
    delivered tree heads with a valid inclusion proof, if its logger is not convicted and the issuer's revocation vector, known to the
    client or delivered in this period, does not revoke it. *)
Theorem C113_certificate_accepted : forall (P : prims) (z : gzip) (x : CA.x509lib) (S : sysconf P) T p sec st lt ct Gs l,
  let W0 := world_init x S p sec st lt ct in let cfgs := sy_gossipers S in
  honest_network cfgs T -> valid_statements cfgs p Gs -> agg_correct P -> fast_perm P -> (forall sg : bls_sig P, bls_deser (bls_ser sg) = Some sg) ->
  (forall u c, cfgs !! u = Some c -> NoDup (gc_neighbours c)) -> T <= 2 \/ no_fragment_twice p (w_net (wrun z x S W0 l)) Gs -> (forall m, h_sha256 P m <> "") ->
  one_period l -> clocks_in p l -> monitors_undisturbed l -> (forall w h, arrives z x S W0 l (ToGossip w h) -> h ∈ Gs) ->
  oquiescent (w_net (wrun z x S W0 l)) -> reports_arrived z x S W0 l ->
  forall w c mc mu s, cfgs !! w = Some c -> sy_monitors S !! gc_owner c = Some (mc, mu) -> w_mons (wrun z x S W0 l) !! gc_owner c = Some s ->
  (forall m, EMonitor (gc_owner c) (Monitor.MWipe m) ∈ l -> pad2 m = p) ->
  forall m cl cc sc flag, p = pad2 m -> sy_clients S !! cl = Some cc -> knows_gossipers cfgs cc -> w_clients (wrun z x S W0 l) !! cl = Some sc -> SpecClient.idle sc ->
  (forall h, h ∈ Gs -> usable z cc sc h) ->
  forall crt, (forall i, i ∈ SpecClient.relied_on crt -> verify cc (li_sth i) <> Panics) ->
  (exists i u, i ∈ SpecClient.relied_on crt /\ arrives z x S W0 l (ToGossip u (li_sth i)) /\ is_Some (cfgs !! u) /\ g_type (li_sth i) = STH_INIT /\
     ~ SpecClient.convicted sc (g_signer (li_sth i)) /\ verify cc (li_sth i) = Accept /\ proves_inclusion (P := P) crt i) ->
  (exists v, ~ SpecClient.revoked_in v crt /\
     (Client.cl_crv sc !! c_issuer_cn crt = Some v \/
      Client.cl_crv sc !! c_issuer_cn crt = None /\ exists u r, arrives z x S W0 l (ToGossip u r) /\ is_Some (cfgs !! u) /\ g_type r = REV_INIT /\ g_p0 r = c_issuer_cn crt /\ v = snd (srh_and_dcrv z r))) ->
  exists s', w_clients (wrun z x S W0 (l ++ period_end_and_load (gc_owner c) m cl ("Period_" ++ itoa (Z.of_nat m - Monitor.mc_offset mc)) flag)) !! cl = Some s' /\
    Client.check_certificate cc s' crt = Accept.
Proof. exact @certificate_accepted. Qed.
Print Assumptions C113_certificate_accepted.

(** The certificate the CA of the small system issued in this run satisfies the hypotheses, and is accepted. *)
Example C113_certificate_example : exists i, SpecClient.relied_on issued_cert = [i] /\ li_sth i = good_head /\ verify (sys_cc "c1" "" 0) (li_sth i) = Accept /\
  proves_inclusion (P := toy) issued_cert i.
Proof. exact issued_info. Qed.
Example C113_fresh_example : c_issuer_cn issued_cert = g_p0 small_rev /\ ~ SpecClient.revoked_in (snd (srh_and_dcrv toy_z small_rev)) issued_cert /\
  ~ SpecClient.convicted cl0 (g_signer good_head) /\ SpecClient.idle cl0 /\ Client.cl_crv cl0 !! c_issuer_cn issued_cert = None.
Proof. exact issued_fresh. Qed.
Example C113_accepted_example : exists s, w_clients (sys_run (start "12") (deliver_world ++ period_end_and_load "m2" 12 "c1" "Period_12" true)) !! "c1" = Some s /\
  Client.check_certificate (sys_cc "c1" "" 0) s issued_cert = Accept.
Proof. exact issued_accepted. Qed.
