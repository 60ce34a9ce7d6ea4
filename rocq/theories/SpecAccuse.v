(** What is said about accusations in a network of gossipers. *)
From Verif Require Import Bytes Hex Json Types Crypto Verify Prog Gossiper Network SpecVerify SpecGossiper SpecNetwork.
Open Scope string_scope.

Section spec.
Context {P : prims} (cfgs : gmap string (gconf P)).

(** Accusations of [e] in one period, with the same payload, that every gossiper
    accepts. *)
Record accusations (e period : string) (As : list gobj) : Prop := mkaccusations {
  ac_entity : e <> "";
  ac_kind : forall a, a ∈ As -> g_type a = ACC_INIT /\ g_p0 a = e /\ g_period a = period;
  ac_same : forall a b, a ∈ As -> b ∈ As -> g_p1 a = g_p1 b /\ g_p2 a = g_p2 b /\ g_s1 a = g_s1 b;
  ac_accepted : forall a u c, a ∈ As -> cfgs !! u = Some c -> verify (gc_crypto c) a = Accept
}.

(** What else is handed in about [e]: no conflict proofs, no other accusations and nothing
    made from accusations; and no two versions of one statement.  Everything may be handed
    in about other entities. *)
Definition undisturbed (e : string) (As : list gobj) (l : list nevent) : Prop :=
  forall u g, NHand u g ∈ l -> g_p0 g = e -> g ∈ As \/
    (g_type g ∉ [CON_INIT; ACC_INIT; ACC_FRAG; ACC_FULL] /\
     (statement g -> g_signer g <> "" /\
        forall v h, NHand v h ∈ l -> get_id h = get_id g -> (g_s0 h, g_s1 h) = (g_s0 g, g_s1 g))).

(** Gossiper [u] is handed an accusation. *)
Definition accuser (As : list gobj) (l : list nevent) (u : string) : Prop :=
  exists a, a ∈ As /\ NHand u a ∈ l.

End spec.

(** [g] is [h] with another text in a field that fragments do not use (the second signature). *)
Definition relabelled (h g : gobj) : Prop := exists x,
  let '(mkobj a p t s ss s0 _ ti sc p0 p1 p2) := h in g = mkobj a p t s ss s0 x ti sc p0 p1 p2.
