(** Vocabulary for statements about what the whole system finds out. *)
From Verif Require Import Bytes Hex Json Types Crypto Verify Bitset CTngExt Revocation Prog Gossiper Network Overlap System.
From Verif Require Logger CA Monitor Client.
Open Scope string_scope.

Section spec.
Context {P : prims} (z : gzip) (x : CA.x509lib) (S : sysconf P) (W0 : world).

(** In the history [l] the message [y] arrives. *)
Definition arrives (l : list wevent) (y : mail) : Prop :=
  exists l1 i m l2, l = (l1 ++ EDeliver i m :: l2)%list /\ w_mail (wrun z x S W0 l1) !! i = Some y.

(** In the history [l] the message [y] is lost. *)
Definition loses (l : list wevent) (y : mail) : Prop :=
  exists l1 i l2, l = (l1 ++ ELose i :: l2)%list /\ w_mail (wrun z x S W0 l1) !! i = Some y.

(** All objects with the identifier of [a] that arrive at one gossiper have the same signature: only different gossipers are told
    different things. *)
Definition one_version_given (l : list wevent) (a : gobj) : Prop := forall w g h, arrives l (ToGossip w g) -> arrives l (ToGossip w h) ->
  get_id g = get_id a -> get_id h = get_id a -> (g_s0 g, g_s1 g) = (g_s0 h, g_s1 h).

(** All reports of gossipers to their monitors have arrived. *)
Definition reports_arrived (l : list wevent) : Prop :=
  forall mon g, ToMon mon g ∉ w_mail (wrun z x S W0 l) /\ ~ loses l (ToMon mon g).
End spec.

(** One period: no gossiper starts a new one, and outsiders do not post to gossipers directly. *)
Definition one_period (l : list wevent) : Prop := forall ev, ev ∈ l -> match ev with EPost _ | EPeriod _ => False | _ => True end.

(** The periodic tasks of a monitor in minute [m] (monitor/monitor.go:460-468), and then a client loads the update written. *)
Definition period_end_and_load (mon : string) (m : nat) (cl dir : string) (flag : bool) : list wevent :=
  [EMonitor mon Monitor.MClean; EMonitor mon (Monitor.MWipe m); EMonitor mon (Monitor.MPublish m); ELoad cl mon dir flag].
