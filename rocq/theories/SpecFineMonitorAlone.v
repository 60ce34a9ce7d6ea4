(** Words for what a monitor does when nothing else happens meanwhile. *)
From Verif Require Import Bytes Types Crypto Verify Bitset Revocation Clock Monitor FineMonitor.

(** What leaves the monitor, in the words of the other model (FineMonitor.v): an object sent to
    the gossiper, or a query. *)
Definition fo (o : mout) : fout := match o with MSend g => FSend g | MAsk f u => FAsk f u end.

(** Two updates are equal, except for the order in their four lists (an order the code does not
    fix: monitor/monitor.go:434-447 ranges over maps). *)
Definition ueq (u v : update) : Prop :=
  u_sths u ≡ₚ u_sths v /\ u_revs u ≡ₚ u_revs v /\ u_cons u ≡ₚ u_cons v /\ u_accs u ≡ₚ u_accs v /\ u_monitor u = u_monitor v /\ u_period u = u_period v.

(** An event of Monitor.v that is not one of the three steps of the task. *)
Definition handler (e : mevent) : Prop := match e with MClean | MWipe _ | MPublish _ => False | _ => True end.
