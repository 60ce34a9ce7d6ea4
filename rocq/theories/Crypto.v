(** crypto/*.go: keys, configurations, signature strings, threshold
    aggregation.  The primitives of crypto/rsa, herumi/bls and the hash
    functions are fields of a record: every theorem quantifies over it. *)
From Verif Require Import Bytes Hex Json.
Open Scope string_scope.

Record prims : Type := mkprims {
  rsa_pub : Type;
  rsa_sec : Type;
  (** rsa.SignPKCS1v15 over SHA-256 of the message: deterministic. *)
  rsa_sign : rsa_sec -> string -> string;
  (** rsa.VerifyPKCS1v15 over SHA-256 of the message. *)
  rsa_check : rsa_pub -> string -> string -> bool;
  (** Does verification with the zero rsa.PublicKey panic (nil modulus,
      Go before 1.24) rather than return an error? *)
  rsa_nokey_panics : bool;
  bls_pub : Type;
  bls_sec : Type;
  bls_sig : Type;
  (** The zero values bls.PublicKey{} and new(bls.Sign). *)
  bls_pub0 : bls_pub;
  bls_sig0 : bls_sig;
  bls_sign : bls_sec -> string -> bls_sig;
  bls_check : bls_pub -> string -> bls_sig -> bool;
  bls_agg : list bls_sig -> bls_sig;
  (** FastAggregateVerify on a non-empty list of public keys. *)
  bls_fast_check : list bls_pub -> string -> bls_sig -> bool;
  (** Sign.Serialize and Sign.Deserialize (raw bytes). *)
  bls_ser : bls_sig -> string;
  bls_deser : string -> option bls_sig;
  h_sha256 : string -> string;
  h_md5 : string -> string
}.

Arguments rsa_sign {_}. Arguments rsa_check {_}. Arguments bls_pub0 {_}. Arguments bls_sig0 {_}.
Arguments bls_sign {_}. Arguments bls_check {_}. Arguments bls_agg {_}. Arguments bls_fast_check {_}.
Arguments bls_ser {_}. Arguments bls_deser {_}.

(** Outcome of a Go function returning error: nil, an error, or a panic. *)
Inductive verdict := Accept | Reject | Panics.

Global Instance verdict_eq_dec : EqDecision verdict.
Proof. solve_decision. Defined.

(** crypto/types.go:256-268, CryptoConfig.  [cc_threshold] is a nat: a
    negative Go int behaves like 0 in every comparison the code makes. *)
Record cconf (P : prims) : Type := mkcconf {
  cc_threshold : nat;
  cc_n : Z;
  cc_hash : Z;
  cc_sign_scheme : string;
  cc_thr_scheme : string;
  cc_self : string;
  cc_rsa_pubs : gmap string (rsa_pub P);
  cc_rsa_sec : rsa_sec P;
  cc_bls_pubs : gmap string (bls_pub P);
  cc_bls_sec : bls_sec P
}.
Arguments cc_threshold {P}. Arguments cc_n {P}. Arguments cc_hash {P}. Arguments cc_sign_scheme {P}.
Arguments cc_thr_scheme {P}. Arguments cc_self {P}. Arguments cc_rsa_pubs {P}. Arguments cc_rsa_sec {P}.
Arguments cc_bls_pubs {P}. Arguments cc_bls_sec {P}.

(* ---------------------------------------------------------------- *)
(** * Signatures and their strings *)

(** crypto/types.go:95-98, RSASig. *)
Record rsasig : Type := mkrsasig { rs_sig : string; rs_id : string }.

Global Instance rsasig_eq_dec : EqDecision rsasig.
Proof. solve_decision. Defined.

(** crypto/types.go:101-103, RSASig.String: fmt.Sprintf with %s, so the
    identity is not escaped. *)
Definition rsasig_string (s : rsasig) : string :=
  "{""sig"":""" ++ hex_encode (rs_sig s) ++ """,""id"":""" ++ rs_id s ++ """}".

(** crypto/types.go:106-120, RSASigFromString. [None] is an error. *)
Definition rsasig_from_string (str : string) : option rsasig :=
  match unmarshal_string_map str with
  | None => None
  | Some m =>
      match hex_decode (map_get m "sig") with
      | None => None
      | Some b => Some (mkrsasig b (map_get m "id"))
      end
  end.

Section with_prims.
Context {P : prims}.

(** crypto/types.go:188-191, SigFragment (Sign is non-nil). *)
Record sigfrag : Type := mkfrag { sf_sign : bls_sig P; sf_id : string }.

(** crypto/types.go:196-198, SigFragment.String. *)
Definition sigfrag_string (s : sigfrag) : string :=
  "{""sign"":""" ++ hex_encode (bls_ser (sf_sign s)) ++ """,""id"":""" ++ sf_id s ++ """}".

(** bls.Sign.DeserializeHexStr. *)
Definition bls_deser_hex (h : string) : option (bls_sig P) :=
  match hex_decode h with
  | None => None
  | Some b => bls_deser b
  end.

(** crypto/types.go:201-215, SigFragmentFromString: the value returned
    (also on error, because callers use it) and whether err is nil. *)
Definition sigfrag_from_string (str : string) : sigfrag * bool :=
  match unmarshal_string_map str with
  | None => (mkfrag bls_sig0 "", false)
  | Some m =>
      match bls_deser_hex (map_get m "sign") with
      | None => (mkfrag bls_sig0 "", false)
      | Some s => (mkfrag s (map_get m "id"), true)
      end
  end.

(** crypto/types.go:217-220, ThresholdSig with non-nil Sign. *)
Record thrsig : Type := mkthr { ts_ids : list string; ts_sign : bls_sig P }.

(** crypto/types.go:222-232, ThresholdSig.String (json.Marshal of a
    string slice does not fail).  make([]string, 0) prints as []. *)
Definition thrsig_string (t : thrsig) : string :=
  "{""sign"":""" ++ hex_encode (bls_ser (ts_sign t)) ++ """, ""ids"":"
    ++ print_json (JArr (map JStr (ts_ids t))) ++ "}".

(** The anonymous struct {Sign string; IDs []string} of
    crypto/types.go:237-240. *)
Fixpoint thr_fields (sg : string) (ids : list string) (l : list (string * json)) : option (string * list string) :=
  match l with
  | [] => Some (sg, ids)
  | (k, v) :: r =>
      if String.eqb (lower_str k) "sign" then
        match dec_string sg v with Some x => thr_fields x ids r | None => None end
      else if String.eqb (lower_str k) "ids" then
        match dec_string_slice ids v with Some x => thr_fields sg x r | None => None end
      else thr_fields sg ids r
  end.

Definition thr_unmarshal (str : string) : option (string * list string) :=
  match parse_json str with
  | Some (JObj l) => thr_fields "" [] l
  | Some JNull => Some ("", [])
  | _ => None
  end.

(** crypto/types.go:234-253, ThresholdSigFromString: the value returned,
    which its caller uses even if err is not nil.  When the JSON is bad
    Sign is a nil pointer and IDs is empty; FastAggregateVerify returns false on
    an empty list before touching Sign, so the nil pointer is
    represented by the zero signature. *)
Definition thrsig_from_string (str : string) : thrsig * bool :=
  match thr_unmarshal str with
  | None => (mkthr [] bls_sig0, false)
  | Some (sg, ids) =>
      match bls_deser_hex sg with
      | None => (mkthr ids bls_sig0, false)
      | Some s => (mkthr ids s, true)
      end
  end.

(* ---------------------------------------------------------------- *)
(** * Operations of CryptoConfig *)

(** crypto/crypto_config.go:23-30, Hash ([None]: scheme not supported). *)
Definition cc_hash_msg (c : cconf P) (m : string) : option string :=
  if Z.eqb (cc_hash c) 4 then Some (h_sha256 P m)
  else if Z.eqb (cc_hash c) 1 then Some (h_md5 P m)
  else None.

(** crypto/crypto_config.go:34-39, Sign. *)
Definition cc_sign (c : cconf P) (m : string) : option rsasig :=
  if String.eqb (cc_sign_scheme c) "rsa"
  then Some (mkrsasig (rsa_sign (cc_rsa_sec c) m) (cc_self c))
  else None.

(** crypto/crypto_config.go:42-49, Verify, and crypto/rsa.go:38-44: the
    key is looked up under the identity inside the signature; a missing
    key is the zero rsa.PublicKey. *)
Definition cc_verify (c : cconf P) (m : string) (s : rsasig) : verdict :=
  if String.eqb (cc_sign_scheme c) "rsa" then
    match cc_rsa_pubs c !! rs_id s with
    | Some pk => if rsa_check pk m (rs_sig s) then Accept else Reject
    | None => if rsa_nokey_panics P then Panics else Reject
    end
  else Reject.

(** Map lookup with the zero public key for missing identities
    (crypto/bls.go:101, 109). *)
Definition bls_key (c : cconf P) (id : string) : bls_pub P :=
  match cc_bls_pubs c !! id with Some pk => pk | None => bls_pub0 end.

(** crypto/bls.go:66-73 and crypto/crypto_config.go:52-58, ThresholdSign. *)
Definition cc_thr_sign (c : cconf P) (m : string) : option sigfrag :=
  if String.eqb (cc_thr_scheme c) "bls"
  then Some (mkfrag (bls_sign (cc_bls_sec c) m) (cc_self c))
  else None.

(** crypto/types.go:44-54 with sort.Sort: the identities sorted by Go
    string order. *)
Fixpoint insert_id (x : string) (l : list string) : list string :=
  match l with
  | [] => [x]
  | y :: r => if str_ltb y x then y :: insert_id x r else x :: l
  end.

Fixpoint sort_ids (l : list string) : list string :=
  match l with
  | [] => []
  | x :: r => insert_id x (sort_ids r)
  end.

(** crypto/bls.go:76-94, ThresholdAggregate. *)
Definition thr_aggregate (sigs : list sigfrag) (threshold : nat) : option thrsig :=
  if Nat.ltb (length sigs) threshold then None
  else Some (mkthr (sort_ids (map sf_id sigs)) (bls_agg (map sf_sign sigs))).

(** crypto/crypto_config.go:61-71, CryptoConfig.ThresholdAggregate. *)
Definition cc_thr_aggregate (c : cconf P) (sigs : list sigfrag) : option thrsig :=
  if String.eqb (cc_thr_scheme c) "bls" then thr_aggregate sigs (cc_threshold c) else None.

(** crypto/bls.go:97-105, ThresholdSig.Verify: FastAggregateVerify over
    the keys of the identities in the signature; an empty list
    fails. *)
Definition thr_verify (c : cconf P) (m : string) (t : thrsig) : bool :=
  match ts_ids t with
  | [] => false
  | ids => bls_fast_check (map (bls_key c) ids) m (ts_sign t)
  end.

(** crypto/crypto_config.go:75-84, ThresholdVerify. *)
Definition cc_thr_verify (c : cconf P) (m : string) (t : thrsig) : verdict :=
  if String.eqb (cc_thr_scheme c) "bls"
  then if thr_verify c m t then Accept else Reject
  else Reject.

(** crypto/bls.go:108-111 and crypto/crypto_config.go:88-97,
    FragmentVerify. *)
Definition cc_frag_verify (c : cconf P) (m : string) (f : sigfrag) : verdict :=
  if String.eqb (cc_thr_scheme c) "bls"
  then if bls_check (bls_key c (sf_id f)) m (sf_sign f) then Accept else Reject
  else Reject.

End with_prims.

Arguments sigfrag : clear implicits.
Arguments thrsig : clear implicits.
