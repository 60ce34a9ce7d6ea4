(** Vocabulary for statements about a certificate on its way from the CA to the clients. *)
From Verif Require Import Bytes Hex Json Clock Types Crypto Verify Bitset CTngExt Revocation Prog Gossiper Network Overlap System SpecGossiper SpecNetwork SpecOverlap SpecSystem SpecSystemDetect SpecSystemDeliver.
From Verif Require Cert Merkle.
From Verif Require Logger CA Monitor Client SpecClient.
Open Scope string_scope.

Section accept.
Context {P : prims} (z : gzip) (x : CA.x509lib) (S : sysconf P).

(** A period [p] in which the gossipers are told one version of each statement ([Gs]) and in which, after the history [l] from the state [W0],
    everything has come to rest and no message is missing; the threshold is at most two, or no handlers have stored a fragment twice. *)
Record good_period (T : nat) (p : string) (Gs : list gobj) (W0 : world) (l : list wevent) : Prop := {
  gp_network : honest_network (sy_gossipers S) T;
  gp_statements : valid_statements (sy_gossipers S) p Gs;
  gp_neighbours : forall u c, sy_gossipers S !! u = Some c -> NoDup (gc_neighbours c);
  gp_fragments : T <= 2 \/ no_fragment_twice p (w_net (wrun z x S W0 l)) Gs;
  gp_one : one_period l;
  gp_clocks : clocks_in p l;
  gp_monitors : monitors_undisturbed l;
  gp_told : forall w h, arrives z x S W0 l (ToGossip w h) -> h ∈ Gs;
  gp_rest : oquiescent (w_net (wrun z x S W0 l));
  gp_reports : reports_arrived z x S W0 l
}.

(** The client [cl] with the keys [cc] and the databases [sc] is ready for the update of the monitor [mon] (of a gossiper, and still running)
    for the period [p]. *)
Record ready (p : string) (Gs : list gobj) (W0 : world) (l : list wevent) (mon : string) (mc : Monitor.mconf) (cl : string) (cc : cconf P) (sc : Client.clst) : Prop := {
  rd_gossiper : exists w c, sy_gossipers S !! w = Some c /\ gc_owner c = mon;
  rd_monitor : exists mu, sy_monitors S !! mon = Some (mc, mu);
  rd_runs : is_Some (w_mons (wrun z x S W0 l) !! mon);
  rd_wiped : forall m, EMonitor mon (Monitor.MWipe m) ∈ l -> pad2 m = p;
  rd_client : sy_clients S !! cl = Some cc;
  rd_keys : knows_gossipers (sy_gossipers S) cc;
  rd_state : w_clients (wrun z x S W0 l) !! cl = Some sc;
  rd_idle : SpecClient.idle sc;
  rd_usable : forall h, h ∈ Gs -> usable z cc sc h
}.

(** The client knows, or is sent, a revocation vector of the CA [e] that does not revoke the certificate [crt]. *)
Definition known_unrevoked (W0 : world) (l : list wevent) (sc : Client.clst) (e : string) (crt : Cert.cert) : Prop :=
  exists v, ~ SpecClient.revoked_in v crt /\
    (Client.cl_crv sc !! e = Some v \/
     Client.cl_crv sc !! e = None /\ exists u r, arrives z x S W0 l (ToGossip u r) /\ is_Some (sy_gossipers S !! u) /\
       g_type r = REV_INIT /\ g_p0 r = e /\ v = snd (srh_and_dcrv z r)).
End accept.
