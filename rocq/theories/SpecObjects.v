(** What the objects look like that the entities make. *)
From Verif Require Import Bytes Types.
Open Scope string_scope.

(** The fields of an object besides its first signature and its payload. *)
Definition labelled (g : gobj) (app ty period signer : string) (signers : list string) (s1 stamp scheme : string) : Prop :=
  g_app g = app /\ g_type g = ty /\ g_period g = period /\ g_signer g = signer /\ g_signers g = signers /\ g_s1 g = s1 /\ g_time g = stamp /\ g_scheme g = scheme.

Definition payload_is (g : gobj) (p0 p1 p2 : string) : Prop := g_p0 g = p0 /\ g_p1 g = p1 /\ g_p2 g = p2.

(** The names of types: 101, 102, 103 are statements about tree heads, revocations and accusations, 201 to 203 fragments of them,
    301 to 303 aggregates; 104 is a proof of a conflict. *)
Definition type_no (n : string) : string := "http://ctng.uconn.edu/" ++ n.
