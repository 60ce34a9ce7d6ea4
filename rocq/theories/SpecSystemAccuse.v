(** Vocabulary for statements about what accusations lead to in the whole system. *)
From Verif Require Import Bytes Hex Json Types Crypto Verify Bitset CTngExt Revocation Prog Gossiper Network Overlap System SpecGossiper SpecSystemDetect.
From Verif Require Logger CA Monitor Client.
Open Scope string_scope.

Section spec.
Context {P : prims} (z : gzip) (x : CA.x509lib) (S : sysconf P) (W0 : world).

(** In the history [l] a timer of the monitor [mon], which belongs to the gossiper [u], fires, and [mon] sends [a]. *)
Definition timer_sends (l : list wevent) (mon u : string) (a : gobj) : Prop :=
  exists l1 n m stamp l2 c s s' o, l = (l1 ++ EMonitor mon (Monitor.MFire n m stamp) :: l2)%list /\
    sy_monitors S !! mon = Some (c, u) /\ w_mons (wrun z x S W0 l1) !! mon = Some s /\
    Monitor.mstep z c s (Monitor.MFire n m stamp) = Some (s', o) /\ Monitor.MSend a ∈ o.

(** All messages to gossipers have arrived. *)
Definition messages_arrived (l : list wevent) : Prop :=
  forall u g, ToGossip u g ∉ w_mail (wrun z x S W0 l) /\ ~ loses z x S W0 l (ToGossip u g).

(** What else arrives at gossipers about [e]: no conflict proofs, no other accusations than those in [As] and nothing made from accusations;
    and no two versions of one statement.  Anything may arrive about other entities. *)
Definition undisturbed_accusations (e : string) (As : list gobj) (l : list wevent) : Prop :=
  forall u g, arrives z x S W0 l (ToGossip u g) -> g_p0 g = e -> g ∈ As \/
    (g_type g ∉ [CON_INIT; ACC_INIT; ACC_FRAG; ACC_FULL] /\
     (statement g -> g_signer g <> "" /\
        forall v h, arrives z x S W0 l (ToGossip v h) -> get_id h = get_id g -> (g_s0 h, g_s1 h) = (g_s0 g, g_s1 g))).
End spec.
