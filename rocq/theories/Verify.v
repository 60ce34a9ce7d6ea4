(** definition/Verify.go. *)
From Verif Require Import Bytes Hex Json Types Crypto.
Open Scope string_scope.

Section with_prims.
Context {P : prims}.
Implicit Types (c : cconf P) (g : gobj).

(** definition/Verify.go:70-81, Verify_RSAPayload. *)
Definition verify_rsa_payload c g : verdict :=
  if negb (is_empty (g_s0 g)) && negb (is_empty (g_p0 g)) then
    match rsasig_from_string (g_s0 g) with
    | None => Reject
    | Some s => cc_verify c (signed_msg g) s
    end
  else Reject.

(** definition/Verify.go:42-53, Verify_PayloadFrag (the parse error is
    ignored). *)
Definition verify_payload_frag c g : verdict :=
  if negb (is_empty (g_s0 g)) && negb (is_empty (g_p0 g)) then
    cc_frag_verify c (signed_msg g) (fst (sigfrag_from_string (g_s0 g)))
  else Reject.

(** definition/Verify.go:56-67, Verify_PayloadThreshold. *)
Definition verify_payload_threshold c g : verdict :=
  if negb (is_empty (g_s0 g)) && negb (is_empty (g_p0 g)) then
    cc_thr_verify c (signed_msg g) (fst (thrsig_from_string (g_s0 g)))
  else Reject.

(** Two checks evaluated one after the other (definition/Verify.go:27-34):
    the second one runs even if the first returns an error; a panic in either
    one ends the call. *)
Definition both (a b : verdict) : verdict :=
  match a with
  | Panics => Panics
  | Accept => b
  | Reject => match b with Panics => Panics | _ => Reject end
  end.

(** definition/Verify.go:22-39, Verify_CON. *)
Definition verify_con c g : verdict :=
  match rsasig_from_string (g_s0 g), rsasig_from_string (g_s1 g) with
  | Some s1, Some s2 => both (cc_verify c (g_p1 g) s1) (cc_verify c (g_p2 g) s2)
  | _, _ => Reject
  end.

(** definition/Verify.go:87-114, Gossip_object.Verify. *)
Definition verify c g : verdict :=
  match obj_kind g with
  | KObj (OInit _) => verify_rsa_payload c g
  | KObj OCon => verify_con c g
  | KFrag _ => verify_payload_frag c g
  | KObj (OFull _) => verify_payload_threshold c g
  | KUnknown => Reject
  end.

(** definition/Verify.go:116-136, ExtractRootHash ([None]: error). *)
Definition extract_root_hash g : option string :=
  match hex_decode (g_p1 g) with
  | None => None
  | Some b =>
      match sth_unmarshal b with
      | None => None
      | Some x => hex_decode (sth_root x)
      end
  end.

End with_prims.
