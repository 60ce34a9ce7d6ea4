(** What is said about the detection of conflicting statements and of
    accusations in a network of gossipers. *)
From Verif Require Import Bytes Hex Json Types Crypto Verify Prog Gossiper Network SpecVerify SpecGossiper SpecNetwork.
Open Scope string_scope.

Section spec.
Context {P : prims} (cfgs : gmap string (gconf P)).

(** Everybody is connected to everybody else, has the same RSA public
    keys and a positive threshold. *)
Record connected : Prop := mkconnected {
  cn_neighbours : forall u c, cfgs !! u = Some c -> forall v, v ∈ gc_neighbours c <-> v <> u /\ is_Some (cfgs !! v);
  cn_keys : forall u c v d, cfgs !! u = Some c -> cfgs !! v = Some d ->
    cc_sign_scheme (gc_crypto c) = cc_sign_scheme (gc_crypto d) /\ cc_rsa_pubs (gc_crypto c) = cc_rsa_pubs (gc_crypto d);
  cn_threshold : forall u c, cfgs !! u = Some c -> 0 < cc_threshold (gc_crypto c)
}.

(** Two statements for one identifier by one signer with different
    signatures, both of which every gossiper accepts. *)
Record equivocation (a b : gobj) : Prop := mkequivocation {
  eq_statement : statement a;
  eq_id : get_id a = get_id b;
  eq_signer : g_signer a = g_signer b /\ g_signer a <> "";
  eq_differ : (g_s0 a, g_s1 a) <> (g_s0 b, g_s1 b);
  eq_accepted : forall u c, cfgs !! u = Some c -> verify (gc_crypto c) a = Accept /\ verify (gc_crypto c) b = Accept
}.

(** [g] does not interfere with the detection of versions of [a]: if it is about the same entity,
    it is not an accusation; and if it is another version of [a], it names the same
    signer, and is not so large that it would be announced instead of sent. *)
Definition harmless (a g : gobj) : Prop := g_p0 g = g_p0 a ->
  g_type g ∉ [ACC_INIT; ACC_FRAG; ACC_FULL] /\
  (get_id g = get_id a -> g_signer g = g_signer a /\
     (g_type g = REV_INIT -> forall u c, cfgs !! u = Some c -> (Z.of_nat (len (gobj_marshal g)) <= gc_opt_threshold c)%Z)).

(** [g] is [a] with another signer field, which is not signed, and its signature spelled
    differently: anybody can make it. *)
Definition respelled (a g : gobj) : Prop := exists name text, rsasig_from_string text = rsasig_from_string (g_s0 a) /\
  g = mkobj (g_app a) (g_period a) (g_type a) name (g_signers a) text (g_s1 a) (g_time a) (g_scheme a) (g_p0 a) (g_p1 a) (g_p2 a).

End spec.
