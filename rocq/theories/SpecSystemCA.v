(** Vocabulary for statements about a normal CA in the whole system. *)
From Verif Require Import Bytes Hex Json Types Crypto Verify Bitset CTngExt Clock Revocation Prog Gossiper Network Overlap System SpecGossiper SpecCodec SpecCA.
From Verif Require Logger CA Monitor Client.
Open Scope string_scope.

Section spec.
Context {P : prims} (z : gzip) (x : CA.x509lib) (S : sysconf P) (W0 : world).

(** [e] is the URL and the name of a CA with configuration [c]; nobody else signs under this name; no monitor takes it
    for a logger; every monitor has its key. *)
Definition ca_identity (e : string) (c : CA.caconf P) : Prop :=
  (exists cc, sy_cas S !! e = Some (c, cc)) /\ CA.cac_signer c = e /\ CA.cac_self c = e /\ e <> "" /\ plain_id e = true /\
  (forall u c', sy_loggers S !! u = Some c' -> Logger.lc_signer c' <> e) /\
  (forall ca c' cc, sy_cas S !! ca = Some (c', cc) -> ca <> e -> CA.cac_signer c' <> e) /\
  (forall mon c' u, sy_monitors S !! mon = Some (c', u) -> e ∉ Monitor.mc_loggers c' /\
     cc_sign_scheme (Monitor.mc_crypto c') = "rsa" /\
     exists pk, cc_rsa_pubs (Monitor.mc_crypto c') !! e = Some pk /\ forall m, rsa_check pk m (rsa_sign (CA.cac_key c) m) = true).

(** People outside send nothing about [e], and do not pose as [e] towards the monitors. *)
Definition outsiders_quiet (e : string) (l : list wevent) : Prop :=
  (forall y, EInject y ∈ l ->
     match y with
     | ToGossip _ g | ToMon _ g => g_p0 g <> e
     | Query _ f url => url = e -> f = Rev
     | Response _ _ _ _ => False
     | _ => True
     end) /\
  (forall u path g, EPost (mkpost u path (MObj g)) ∈ l -> g_p0 g <> e).

(** The minutes in which a period of [e] ends. *)
Definition period_ends (e : string) (l : list wevent) : list nat :=
  omap (λ ev, match ev with ECaPeriod u _ m => if String.eqb u e then Some m else None | _ => None end) l.

(** The identifiers [e] revokes can be held by Go's bitset. *)
Definition revokes_ok (e : string) (l : list wevent) : Prop :=
  (forall i, ERevoke e i ∈ l -> index_ok i) /\ (forall rs m, ECaPeriod e rs m ∈ l -> forall i, i ∈ rs -> index_ok i).

(** A query to [e] that arrives in minute [m] comes after [e] has ended a period in the minute before ([next n]
    is the minute after [n]); no query to [e] and no answer of [e] is lost. *)
Definition ca_timely (next : nat -> nat) (e : string) (l : list wevent) : Prop :=
  (forall l1 i m l2 mon f, l = (l1 ++ EDeliver i m :: l2)%list -> w_mail (wrun z x S W0 l1) !! i = Some (Query mon f e) ->
     exists rs n, ECaPeriod e rs n ∈ l1 /\ m = next n) /\
  (forall l1 i l2 y, l = (l1 ++ ELose i :: l2)%list -> w_mail (wrun z x S W0 l1) !! i = Some y ->
     match y with Query _ _ url | Response _ _ url _ => url <> e | _ => True end).

(** Whenever a monitor gets a revocation object of [e], then what it has recorded as revoked by [e] is all that [e] had revoked when it made
    the object, or it has recorded nothing yet and the object is the first that [e] made. *)
Definition records_right (e : string) (l : list wevent) : Prop :=
  forall l1 i n l2 mon g c u s la rs m lb sa,
    l = (l1 ++ EDeliver i n :: l2)%list -> w_mail (wrun z x S W0 l1) !! i = Some (Response mon Rev e (Some g)) ->
    sy_monitors S !! mon = Some (c, u) -> w_mons (wrun z x S W0 l1) !! mon = Some s ->
    l1 = (la ++ ECaPeriod e rs m :: lb)%list -> w_cas (wrun z x S W0 (la ++ [ECaPeriod e rs m])) !! e = Some sa ->
    CA.a_rev sa !! unpadded (Datatypes.S m) = Some g ->
    Monitor.m_crv s !! e = Some (v_cur (CA.a_crv sa)) \/
    (Monitor.m_crv s !! e = None /\ forall rs' m', ECaPeriod e rs' m' ∉ la).
End spec.
