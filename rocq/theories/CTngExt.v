(** CA/types.go: the CTng certificate extension and its encoding (JSON inside an
    ASN.1 octet string), and crypto/MerkleTree.go's POI_for_transmission. *)
From Verif Require Import Bytes Hex Base64 Json Types Merkle Cert.
Open Scope string_scope.

(** crypto/MerkleTree.go:27-32, POI_for_transmission. *)
Record poi : Type := mkpoi {
  poi_proof : option proof;
  poi_ski : string;
  poi_issuer : string;
  poi_logger : string
}.
Definition zero_poi : poi := mkpoi None "" "" "".

(** CA/types.go:71-74, LoggerInfo. *)
Record loginfo : Type := mkloginfo { li_sth : gobj; li_poi : poi }.
Definition zero_loginfo : loginfo := mkloginfo zero_obj zero_poi.

(** CA/types.go:76-83, SequenceNumber and CTngExtension. *)
Record ctngext : Type := mkctng { x_rid : Z; x_infos : list loginfo }.
Definition zero_ctng : ctngext := mkctng 0 [].

(** CA/types.go:86. *)
Definition OID_CTNG : string := "1.3.6.1.4.1.67847871".

(* ---------------------------------------------------------------- *)
(** * json.Marshal *)

(** An omitempty string or byte slice field. *)
Definition opt_str (k v : string) : list (string * json) := if is_empty v then [] else [(k, JStr v)].

(** merkletree.Proof has no tags.  An empty sibling list is printed as
    null, as Go does for a nil slice. *)
Definition proof_json (p : proof) : json :=
  JObj [("Siblings", match pf_siblings p with [] => JNull | l => JArr (map (λ s, JStr (b64_encode s)) l) end);
        ("Path", JNum (itoa (Z.of_N (pf_path p))))].

Definition poi_json (p : poi) : json :=
  JObj ((match poi_proof p with Some q => [("poi", proof_json q)] | None => [] end)
        ++ opt_str "subjectKeyId" (b64_encode (poi_ski p))
        ++ opt_str "issuer" (poi_issuer p) ++ opt_str "loggerID" (poi_logger p)).

(** omitempty has no effect on struct-typed fields. *)
Definition loginfo_json (i : loginfo) : json := JObj [("STH", gobj_json (li_sth i)); ("POI", poi_json (li_poi i))].

Definition ctng_json (x : ctngext) : json :=
  JObj ([("SequenceNumber", JObj (if Z.eqb (x_rid x) 0 then [] else [("RID", JNum (itoa (x_rid x)))]))]
        ++ match x_infos x with [] => [] | l => [("LoggerInformation", JArr (map loginfo_json l))] end).

(* ---------------------------------------------------------------- *)
(** * json.Unmarshal, ignoring the error

    The callers print the error and go on.  encoding/json leaves the
    target alone on a syntax error; on a type mismatch it skips the
    value and goes on with the rest. *)

(** A string field: anything but a string leaves it. *)
Definition tol_string (old : string) (v : json) : string := default old (dec_string old v).

(** An integer field with bounds. *)
Definition tol_int (lo hi : Z) (old : Z) (v : json) : Z :=
  match dec_int old v with
  | Some z => if ((lo <=? z) && (z <=? hi))%Z then z else old
  | None => old
  end.

(** A []byte field: base64 text (arrays of small numbers, which Go also
    accepts, are not modelled). *)
Definition tol_bytes (old : string) (v : json) : string :=
  match v with
  | JStr s => default old (b64_decode s)
  | JNull => ""
  | _ => old
  end.

Definition tol_strings (l : list json) : list string := map (tol_string "") l.

(** One field of a gossip object, skipping values of the wrong type. *)
Definition gobj_tol (g : gobj) (kv : string * json) : gobj :=
  let '(k, v) := kv in
  let k' := lower_str k in
  let '(mkobj a p t s ss s0 s1 ti sc p0 p1 p2) := g in
  match v with
  | JArr l =>
      if String.eqb k' "signers" then mkobj a p t s (tol_strings l) s0 s1 ti sc p0 p1 p2
      else if String.eqb k' "signature" then
        mkobj a p t s ss (nth 0 (tol_strings l) "") (nth 1 (tol_strings l) "") ti sc p0 p1 p2
      else if String.eqb k' "payload" then
        mkobj a p t s ss s0 s1 ti sc (nth 0 (tol_strings l) "") (nth 1 (tol_strings l) "") (nth 2 (tol_strings l) "")
      else g
  | _ => default g (gobj_field g kv)
  end.

(** A struct field: an object is decoded key by key, anything else leaves
    the struct. *)
Definition tol_struct {A} (f : A -> string * json -> A) (old : A) (v : json) : A :=
  match v with JObj l => fold_left f l old | _ => old end.

Definition uint32_max : Z := 4294967295.
Definition int64_max : Z := 9223372036854775807.

Definition proof_tol (p : proof) (kv : string * json) : proof :=
  let '(k, v) := kv in
  let k' := lower_str k in
  if String.eqb k' "siblings" then
    match v with
    | JArr l => mkproof (map (tol_bytes "") l) (pf_path p)
    | JNull => mkproof [] (pf_path p)
    | _ => p
    end
  else if String.eqb k' "path" then mkproof (pf_siblings p) (Z.to_N (tol_int 0 uint32_max (Z.of_N (pf_path p)) v))
  else p.

Definition poi_tol (p : poi) (kv : string * json) : poi :=
  let '(k, v) := kv in
  let k' := lower_str k in
  let '(mkpoi q s i l) := p in
  if String.eqb k' "poi" then
    match v with
    | JNull => mkpoi None s i l
    | _ => mkpoi (Some (tol_struct proof_tol (default (mkproof [] 0) q) v)) s i l
    end
  else if String.eqb k' "subjectkeyid" then mkpoi q (tol_bytes s v) i l
  else if String.eqb k' "issuer" then mkpoi q s (tol_string i v) l
  else if String.eqb k' "loggerid" then mkpoi q s i (tol_string l v)
  else p.

Definition loginfo_tol (x : loginfo) (kv : string * json) : loginfo :=
  let '(k, v) := kv in
  let k' := lower_str k in
  if String.eqb k' "sth" then mkloginfo (tol_struct gobj_tol (li_sth x) v) (li_poi x)
  else if String.eqb k' "poi" then mkloginfo (li_sth x) (tol_struct poi_tol (li_poi x) v)
  else x.

Definition seq_tol (z : Z) (kv : string * json) : Z :=
  let '(k, v) := kv in
  if String.eqb (lower_str k) "rid" then tol_int (- int64_max - 1) int64_max z v else z.

Definition ctng_tol (x : ctngext) (kv : string * json) : ctngext :=
  let '(k, v) := kv in
  let k' := lower_str k in
  if String.eqb k' "sequencenumber" then mkctng (tol_struct seq_tol (x_rid x) v) (x_infos x)
  else if String.eqb k' "loggerinformation" then
    match v with
    | JArr l => mkctng (x_rid x) (map (tol_struct loginfo_tol zero_loginfo) l)
    | JNull => mkctng (x_rid x) []
    | _ => x
    end
  else x.

Definition ctng_of_json (v : json) : ctngext := tol_struct ctng_tol zero_ctng v.

Definition ctng_unmarshal (s : string) : ctngext :=
  match parse_json s with Some v => ctng_of_json v | None => zero_ctng end.

(* ---------------------------------------------------------------- *)
(** * The octet string wrapper: encoding/asn1 on a RawValue *)

(** Big-endian base 256 digits, most significant first, without leading zeros. *)
Fixpoint be_bytes (fuel : nat) (n : N) (acc : string) : string :=
  match fuel with
  | O => acc
  | S f => if (n =? 0)%N then acc else be_bytes f (n / 256) (String (ascii_of_N (n mod 256)) acc)
  end.

(** DER length: short form below 128, otherwise the number of length bytes
    (plus 0x80) and the length bytes. *)
Definition der_length (n : N) : string :=
  if (n <? 128)%N then String (ascii_of_N n) ""
  else let b := be_bytes 8 n "" in String (ascii_of_N (128 + N.of_nat (len b))) b.

(** asn1.Marshal(RawValue{Tag: TagOctetString, Bytes: b}). *)
Definition octet_string (b : string) : string := String "004" (der_length (N.of_nat (len b)) ++ b).

Fixpoint be_value (s : string) (acc : N) : N :=
  match s with EmptyString => acc | String c r => be_value r (acc * 256 + N_of_ascii c) end.

Fixpoint split_at (n : nat) (s : string) : option (string * string) :=
  match n, s with
  | O, _ => Some ("", s)
  | S n, String c r => match split_at n r with Some (a, b) => Some (String c a, b) | None => None end
  | S _, EmptyString => None
  end.

(** asn1.Unmarshal into a RawValue: content bytes of the first element.
    Go's rules: no indefinite length, no length longer than four bytes (nor
    2^31 or more: "length too large"), minimal length encodings.
    Identifier octets of the multi-byte form (tag number 31) are
    treated as errors: a simplification. *)
Definition der_content (s : string) : option string :=
  match s with
  | String t (String l r) =>
      if (N.land (N_of_ascii t) 31 =? 31)%N then None
      else
        let n := N_of_ascii l in
        if (n <? 128)%N then match split_at (N.to_nat n) r with Some (b, _) => Some b | None => None end
        else if ((n =? 128) || (132 <? n))%N then None
        else
          match split_at (N.to_nat (n - 128)) r with
          | None => None
          | Some (lb, r') =>
              let v := be_value lb 0 in
              if ((v <? 128) || (2147483648 <=? v))%N then None
              else if match lb with String "000" _ => true | _ => false end then None
              else if (N.of_nat (len r') <? v)%N then None
              else match split_at (N.to_nat v) r' with Some (b, _) => Some b | None => None end
          end
  | _ => None
  end.

(** CA/types.go:93-109, EncodeCTngExtension. *)
Definition encode_ctng (x : ctngext) : string := octet_string (print_json (ctng_json x)).

(** CA/types.go:111-125, DecodeCTngExtension: after an ASN.1 error the
    JSON text is empty, hence a second error and the zero extension. *)
Definition decode_ctng (s : string) : ctngext :=
  match der_content s with Some b => ctng_unmarshal b | None => zero_ctng end.

(* ---------------------------------------------------------------- *)
(** * Extensions of a certificate *)

(** CA/types.go:162-170, ParseCTngextension: the last matching one wins. *)
Definition parse_ctng (c : cert) : ctngext :=
  fold_left (λ acc e, if String.eqb (e_oid e) OID_CTNG then decode_ctng (e_value e) else acc) (c_exts c) zero_ctng.

(** CA/types.go:127-142, UpdateCTngExtension.  The Go function changes the
    certificate in place and returns it. *)
Definition update_ctng (c : cert) (i : loginfo) : cert :=
  let x := parse_ctng c in
  if existsb (λ j, String.eqb (g_signer (li_sth j)) (g_signer (li_sth i))) (x_infos x) then c
  else
    let v := encode_ctng (mkctng (x_rid x) (x_infos x ++ [i])) in
    set_exts c (map (λ e, if String.eqb (e_oid e) OID_CTNG then mkext (e_oid e) (e_critical e) v else e) (c_exts c)).

(** CA/types.go:144-153, UpdateforSigning. *)
Definition update_for_signing (c : cert) : cert :=
  set_extra c (c_extra c ++ [mkext OID_CTNG false (encode_ctng (parse_ctng c))])%list.

(** CA/types.go:172-176, GetRIDfromCert. *)
Definition cert_rid (c : cert) : Z := x_rid (parse_ctng c).

(** CA/types.go:178-195, GetPrecertfromCert. *)
Definition precert_of (c : cert) : cert :=
  set_exts (tbs_certificate c) [mkext OID_CTNG false (encode_ctng (mkctng (cert_rid c) []))].
