(** What is said about the detection of conflicting statements when
    handlers overlap. *)
From Verif Require Import Bytes Types Crypto Verify Prog Gossiper Network Overlap.

(** All objects with the identifier of [a] that one gossiper is handed have
    the same signature: only different gossipers are told different things. *)
Definition one_version (a : gobj) (l : list oevent) : Prop := forall u g h, OHand u g ∈ l -> OHand u h ∈ l ->
  get_id g = get_id a -> get_id h = get_id a -> (g_s0 g, g_s1 g) = (g_s0 h, g_s1 h).
