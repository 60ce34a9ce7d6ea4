(** What is said about networks of gossipers whose handlers overlap. *)
From Verif Require Import Bytes Hex Json Types Crypto Verify Prog Gossiper Network Overlap SpecCodec SpecVerify SpecGossiper SpecNetwork.
Open Scope string_scope.

(** The fragments of statement [g] a gossiper has stored. *)
Definition fragments_held (period : string) (s : gst) (g : gobj) : list gobj :=
  let i := mkgid period (if decide (g_type g = STH_INIT) then STH_FRAG else REV_FRAG) (g_p0 g) in
  default [] ((if decide (g_type g = STH_INIT) then t_sth_frag s else t_rev_frag s) !! i).

(** Only such statements are handed to gossipers, and clocks stay in the period. *)
Definition oallowed (period : string) (Gs : list gobj) (e : oevent) : Prop :=
  match e with
  | OHand _ g => g ∈ Gs
  | OTick _ p _ _ => p = period
  | _ => True
  end.

(** Nothing is on its way, nothing is running, and no timer is pending. *)
Definition oquiescent (N : onet) : Prop :=
  on_flight N = [] /\ forall u (y : gpool), on_nodes N !! u = Some y -> p_threads y = [] /\ p_tasks y = [].

(** The event delivers a post or fires a timer. *)
Definition oeffective (N : onet) (e : oevent) : Prop :=
  match e with
  | ODeliver i => i < length (on_flight N)
  | OStart u i => exists y : gpool, on_nodes N !! u = Some y /\ i < length (p_tasks y)
  | _ => False
  end.
Global Instance oeffective_dec N e : Decision (oeffective N e).
Proof.
  destruct e as [|i| |u i|]; cbn; try apply _. destruct (on_nodes N !! u) as [y|] eqn:E.
  - destruct (decide (i < length (p_tasks y))) as [H|H]; [left; eauto|right; by intros (? & [= <-] & ?)].
  - right. by intros (? & ? & ?).
Defined.

(** How many events of a run deliver a post or fire a timer. *)
Fixpoint oeffective_steps {P : prims} (cfgs : gmap string (gconf P)) (N : onet) (l : list oevent) : nat :=
  match l with
  | [] => 0
  | e :: r => (if decide (oeffective N e) then 1 else 0) + oeffective_steps cfgs (onet_step cfgs N e) r
  end.
