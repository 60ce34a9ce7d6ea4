(** What is said about accusations when handlers overlap. *)
From Verif Require Import Bytes Types Crypto Verify Prog Gossiper Network Overlap SpecGossiper.
Open Scope string_scope.

(** What else is handed in about [e]: no conflict proofs, no other accusations and nothing
    made from accusations; and no two versions of one statement.  Everything may be handed
    in about other entities. *)
Definition oundisturbed (e : string) (As : list gobj) (l : list oevent) : Prop :=
  forall u g, OHand u g ∈ l -> g_p0 g = e -> g ∈ As \/
    (g_type g ∉ [CON_INIT; ACC_INIT; ACC_FRAG; ACC_FULL] /\
     (statement g -> g_signer g <> "" /\
        forall v h, OHand v h ∈ l -> get_id h = get_id g -> (g_s0 h, g_s1 h) = (g_s0 g, g_s1 g))).

(** Gossiper [u] is handed an accusation. *)
Definition oaccuser (As : list gobj) (l : list oevent) (u : string) : Prop :=
  exists a, a ∈ As /\ OHand u a ∈ l.

(** Who signed the fragments of accusations of [e] that a gossiper has stored. *)
Definition accusation_signers (period e : string) (s : gst) : list string :=
  map g_signer (default [] (t_acc_frag s !! mkgid period ACC_FRAG e)).
