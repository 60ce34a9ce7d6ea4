(** Vocabulary for statements about the whole system. *)
From Verif Require Import Bytes Hex Json Types Crypto Verify Bitset CTngExt Revocation Prog Gossiper Network Overlap System SpecGossiper SpecCodec.
From Verif Require Logger CA Monitor Client.
Open Scope string_scope.

Section spec.
Context {P : prims} (z : gzip) (x : CA.x509lib) (S : sysconf P) (W0 : world).

(** In the history [l] the object [g] is shown to a monitor or gossiper by a logger or CA (as the answer to a query), or by
    somebody outside the system. *)
Definition shown (l : list wevent) (g : gobj) : Prop :=
  (exists l1 l2 mon f url, l = (l1 ++ l2)%list /\ Response mon f url (Some g) ∈ w_mail (wrun z x S W0 l1)) \/
  (exists u, EInject (ToGossip u g) ∈ l) \/ (exists mon, EInject (ToMon mon g) ∈ l) \/
  (exists u path, EPost (mkpost u path (MObj g)) ∈ l).

(** Whenever a monitor gets the result of a query to [e], it is an object that it verifies (and a revocation object
    agrees with what the monitor knows). *)
Definition well_answered (e : string) (l : list wevent) : Prop :=
  forall l1 i m l2 mon f r c u s,
    l = (l1 ++ EDeliver i m :: l2)%list ->
    w_mail (wrun z x S W0 l1) !! i = Some (Response mon f e r) ->
    sy_monitors S !! mon = Some (c, u) -> w_mons (wrun z x S W0 l1) !! mon = Some s ->
    exists g, r = Some g /\ verify (Monitor.mc_crypto c) g = Accept /\
              (f = Rev -> Monitor.check_rev z c s g = Accept).
End spec.

(** Nobody holds anything against [e]: it is on no gossiper's blacklist, no monitor has a proof of
    misbehaviour of [e] in its tables, no client has one in its database, and no accusation of [e] is on its way from a monitor to
    its gossiper. *)
Definition unconvicted (e : string) (W : world) : Prop :=
  (forall u y, on_nodes (w_net W) !! u = Some y -> e ∉ t_black (p_st y)) /\
  (forall mon s i g, w_mons W !! mon = Some s ->
     Monitor.m_con s !! i = Some g \/ Monitor.m_acc s !! i = Some g \/
     Monitor.m_con_d s !! i = Some g \/ Monitor.m_acc_d s !! i = Some g -> g_p0 g <> e) /\
  (forall cl s, w_clients W !! cl = Some s -> Client.cl_pom s !! e = None) /\
  (forall u g, ToGossip u g ∈ w_mail W -> g_type g = ACC_INIT -> g_p0 g <> e).

(** ** A normal logger *)
Section honest.
Context {P : prims} (z : gzip) (x : CA.x509lib) (S : sysconf P) (W0 : world).

(** [e] is the URL and the name of a logger with configuration [c]; nobody else signs under this name; no monitor takes it
    for a CA; every monitor has its key. *)
Definition logger_identity (e : string) (c : Logger.lconf P) : Prop :=
  sy_loggers S !! e = Some c /\ Logger.lc_signer c = e /\ e <> "" /\ plain_id e = true /\
  (forall u c', sy_loggers S !! u = Some c' -> u <> e -> Logger.lc_signer c' <> e) /\
  (forall ca c' cc, sy_cas S !! ca = Some (c', cc) -> CA.cac_signer c' <> e) /\
  (forall mon c' u, sy_monitors S !! mon = Some (c', u) -> e ∉ Monitor.mc_cas c' /\
     cc_sign_scheme (Monitor.mc_crypto c') = "rsa" /\
     exists pk, cc_rsa_pubs (Monitor.mc_crypto c') !! e = Some pk /\ forall m, rsa_check pk m (rsa_sign (Logger.lc_key c) m) = true).

(** People outside send nothing about [e], and do not pose as [e] towards the monitors. *)
Definition outsiders_silent (e : string) (l : list wevent) : Prop :=
  (forall y, EInject y ∈ l ->
     match y with
     | ToGossip _ g | ToMon _ g => g_p0 g <> e
     | Query _ f url => url = e -> f = Sth
     | Response _ _ _ _ => False
     | _ => True
     end) /\
  (forall u path g, EPost (mkpost u path (MObj g)) ∈ l -> g_p0 g <> e).

(** The minutes in which [e] publishes. *)
Definition publications (e : string) (l : list wevent) : list nat :=
  omap (λ ev, match ev with EPublish u t _ _ => if String.eqb u e then Some (Logger.n_minute t) else None | _ => None end) l.

(** A query to [e] that arrives in minute [m] finds the process running, and [e] has published for that minute ([next n]
    is the minute after [n]); no query to [e] and no answer of [e] is lost. *)
Definition timely (next : nat -> nat) (e : string) (l : list wevent) : Prop :=
  (forall l1 i m l2 mon f, l = (l1 ++ EDeliver i m :: l2)%list -> w_mail (wrun z x S W0 l1) !! i = Some (Query mon f e) ->
     is_Some (w_loggers (wrun z x S W0 l1) !! e) /\
     exists t t1 t2, EPublish e t t1 t2 ∈ l1 /\ m = next (Logger.n_minute t)) /\
  (forall l1 i l2 y, l = (l1 ++ ELose i :: l2)%list -> w_mail (wrun z x S W0 l1) !! i = Some y ->
     match y with Query _ _ url | Response _ _ url _ => url <> e | _ => True end).

(** In time, on a clock that goes on counting after 59, and on a real one. *)
Definition in_time : string -> list wevent -> Prop := timely Datatypes.S.
Definition in_time_60 : string -> list wevent -> Prop := timely (λ n, Nat.modulo (Datatypes.S n) 60).
End honest.
