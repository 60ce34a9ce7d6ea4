(** crypto/crypto_IO.go, the key maps of crypto/types.go and
    util.WriteData: crypto configurations and the files they are
    kept in. *)
From Verif Require Import Bytes Hex Base64 Json Crypto CTngExt.
Open Scope string_scope.

(* ---------------------------------------------------------------- *)
(** * json.MarshalIndent *)

Section indent.
(** The line break with the prefix, and one level of indentation:
    MarshalIndent(v, prefix, indent) writes "\n" ++ prefix before every
    element, followed by one [ind] per level. *)
Context (ind : string).

(** json.MarshalIndent of a value; [nl] is the line break with the
    indentation of the enclosing level.  Empty arrays and objects stay
    on one line, as encoding/json writes them. *)
Fixpoint indent_json (nl : string) (v : json) : string :=
  match v with
  | JArr [] => "[]"
  | JObj [] => "{}"
  | JArr l =>
      "[" ++ (fix go (l : list json) : string :=
                match l with
                | [] => ""
                | [x] => (nl ++ ind) ++ indent_json (nl ++ ind) x
                | x :: r => (nl ++ ind) ++ indent_json (nl ++ ind) x ++ "," ++ go r
                end) l ++ nl ++ "]"
  | JObj l =>
      "{" ++ (fix go (l : list (string * json)) : string :=
                match l with
                | [] => ""
                | [(k, x)] => (nl ++ ind) ++ print_str k ++ ": " ++ indent_json (nl ++ ind) x
                | (k, x) :: r => (nl ++ ind) ++ print_str k ++ ": " ++ indent_json (nl ++ ind) x ++ "," ++ go r
                end) l ++ nl ++ "}"
  | _ => print_json v
  end.
End indent.

Definition newline : string := String "010" "".

(** util/IO.go:37-53, WriteData: MarshalIndent(data, "", "  ").  Errors
    of the file system are not modelled. *)
Definition write_data (v : json) : string := indent_json "  " newline v.

(** Gen/Gen.go:226-244, MarshalIndent(config, " ", " "). *)
Definition gen_write (v : json) : string := indent_json " " (newline ++ " ") v.

(* ---------------------------------------------------------------- *)
(** * Keys in files *)

(** How keys are generated and written: fields of a record, like the
    primitives themselves. *)
Record keyio (P : prims) : Type := mkkeyio {
  (** encoding/json on rsa.PublicKey and rsa.PrivateKey; decoding never
      fails as a whole because the callers ignore the error. *)
  rsa_pub_json : rsa_pub P -> json;
  rsa_pub_read : json -> rsa_pub P;
  rsa_sec_json : rsa_sec P -> json;
  rsa_sec_read : json -> rsa_sec P;
  (** rsa.PrivateKey{} and bls.SecretKey{}. *)
  rsa_sec0 : rsa_sec P;
  bls_sec0 : bls_sec P;
  (** PublicKey.Serialize/Deserialize and SecretKey.Serialize/Deserialize
      of herumi/bls. *)
  bls_pub_ser : bls_pub P -> string;
  bls_pub_deser : string -> option (bls_pub P);
  bls_sec_ser : bls_sec P -> string;
  bls_sec_deser : string -> option (bls_sec P);
  (** PrivateKey.PublicKey and SecretKey.GetPublicKey. *)
  rsa_pub_of : rsa_sec P -> rsa_pub P;
  bls_pub_of : bls_sec P -> bls_pub P;
  (** SecretKey.Set: the share of an id in the polynomial with the given
      coefficients. *)
  bls_share : list (bls_sec P) -> string -> bls_sec P
}.
Arguments rsa_pub_json {P}. Arguments rsa_pub_read {P}. Arguments rsa_sec_json {P}. Arguments rsa_sec_read {P}.
Arguments rsa_sec0 {P}. Arguments bls_sec0 {P}. Arguments bls_pub_ser {P}. Arguments bls_pub_deser {P}.
Arguments bls_sec_ser {P}. Arguments bls_sec_deser {P}. Arguments rsa_pub_of {P}. Arguments bls_pub_of {P}.
Arguments bls_share {P}.

Section io.
Context {P : prims} (K : keyio P).

(* ---------------------------------------------------------------- *)
(** * Stored configurations *)

(** crypto/types.go:283-295, StoredCryptoConfig; nil and empty maps are
    not distinguished. *)
Record scc : Type := mkscc {
  sc_self : string;
  sc_threshold : Z;
  sc_n : Z;
  sc_hash : Z;
  sc_sign_scheme : string;
  sc_thr_scheme : string;
  sc_rsa_pubs : gmap string (rsa_pub P);
  sc_rsa_sec : rsa_sec P;
  sc_bls_pubs : gmap string string;
  sc_bls_sec : string
}.

(** The zero StoredCryptoConfig. *)
Definition scc0 : scc := mkscc "" 0 0 0 "" "" ∅ (rsa_sec0 K) ∅ "".

(** crypto/types.go:132-138, BlsPublicMap.Serialize. *)
Definition bls_map_ser (m : gmap string (bls_pub P)) : gmap string string := bls_pub_ser K <$> m.

(** crypto/types.go:142-153, BlsPublicMap.Deserialize on one listing of
    the map: stops at the first key that does not parse.  Simplification: the
    iteration order is the model's; it matters only after a failure. *)
Fixpoint bls_map_deser (acc : gmap string (bls_pub P)) (l : list (string * string)) :
    gmap string (bls_pub P) * bool :=
  match l with
  | [] => (acc, true)
  | (id, s) :: r =>
      match bls_pub_deser K s with
      | Some k => bls_map_deser (<[id := k]> acc) r
      | None => (acc, false)
      end
  end.

(** crypto/crypto_IO.go:116-131, NewStoredCryptoConfig. *)
Definition new_stored (c : cconf P) : scc :=
  mkscc (cc_self c) (Z.of_nat (cc_threshold c)) (cc_n c) (cc_hash c) (cc_sign_scheme c) (cc_thr_scheme c)
    (cc_rsa_pubs c) (cc_rsa_sec c) (bls_map_ser (cc_bls_pubs c)) (bls_sec_ser K (cc_bls_sec c)).

(** crypto/crypto_IO.go:135-157, NewCryptoConfig: the configuration and
    whether the error is nil.  A failing public key leaves the secret key
    zero. *)
Definition new_cconf (s : scc) : cconf P * bool :=
  let mk := mkcconf P (Z.to_nat (sc_threshold s)) (sc_n s) (sc_hash s) (sc_sign_scheme s) (sc_thr_scheme s)
              (sc_self s) (sc_rsa_pubs s) (sc_rsa_sec s) in
  let '(pubs, ok) := bls_map_deser ∅ (map_to_list (sc_bls_pubs s)) in
  if ok then
    match bls_sec_deser K (sc_bls_sec s) with
    | Some sk => (mk pubs sk, true)
    | None => (mk pubs (bls_sec0 K), false)
    end
  else (mk pubs (bls_sec0 K), false).

(** crypto/crypto_IO.go:159-176, NewVerifyOnlyCryptoConfig. *)
Definition new_verify_only (s : scc) : cconf P * bool :=
  let '(pubs, ok) := bls_map_deser ∅ (map_to_list (sc_bls_pubs s)) in
  (mkcconf P (Z.to_nat (sc_threshold s)) (sc_n s) (sc_hash s) (sc_sign_scheme s) (sc_thr_scheme s)
     (sc_self s) (sc_rsa_pubs s) (rsa_sec0 K) pubs (bls_sec0 K), ok).

(** crypto/crypto_IO.go:180-194, NewBasicCryptoConfig. *)
Definition new_basic (s : scc) : cconf P :=
  mkcconf P 0 0 (sc_hash s) (sc_sign_scheme s) "" (sc_self s) (sc_rsa_pubs s) (sc_rsa_sec s) ∅ (bls_sec0 K).

(* ---------------------------------------------------------------- *)
(** * Files *)

(** encoding/json on StoredCryptoConfig (crypto/types.go:283-295): fields
    in order of declaration.  Simplification: the members of a map are
    listed in the model's order, Go sorts them by key. *)
Definition scc_json (s : scc) : json :=
  JObj [("SelfID", JStr (sc_self s));
        ("Threshold", JNum (itoa (sc_threshold s)));
        ("N", JNum (itoa (sc_n s)));
        ("HashScheme", JNum (itoa (sc_hash s)));
        ("SignScheme", JStr (sc_sign_scheme s));
        ("ThresholdScheme", JStr (sc_thr_scheme s));
        ("SignPublicMap", JObj (map (λ kv, (fst kv, rsa_pub_json K (snd kv))) (map_to_list (sc_rsa_pubs s))));
        ("SignSecretKey", rsa_sec_json K (sc_rsa_sec s));
        ("ThresholdPublicMap", JObj (map (λ kv, (fst kv, JStr (b64_encode (snd kv)))) (map_to_list (sc_bls_pubs s))));
        ("ThresholdSecretKey", JStr (b64_encode (sc_bls_sec s)))].

(** One member of the object read by json.Unmarshal into a
    StoredCryptoConfig; the error is ignored, so a value of the wrong type is
    skipped. *)
Definition scc_tol (s : scc) (kv : string * json) : scc :=
  let '(k, v) := kv in
  let k' := lower_str k in
  let '(mkscc a t n h ss ts rp rs bp bs) := s in
  let int old := tol_int (- int64_max - 1) int64_max old v in
  if String.eqb k' "selfid" then mkscc (tol_string a v) t n h ss ts rp rs bp bs
  else if String.eqb k' "threshold" then mkscc a (int t) n h ss ts rp rs bp bs
  else if String.eqb k' "n" then mkscc a t (int n) h ss ts rp rs bp bs
  else if String.eqb k' "hashscheme" then mkscc a t n (int h) ss ts rp rs bp bs
  else if String.eqb k' "signscheme" then mkscc a t n h (tol_string ss v) ts rp rs bp bs
  else if String.eqb k' "thresholdscheme" then mkscc a t n h ss (tol_string ts v) rp rs bp bs
  else if String.eqb k' "signpublicmap" then
    match v with
    | JObj l => mkscc a t n h ss ts (fold_left (λ m e, <[fst e := rsa_pub_read K (snd e)]> m) l rp) rs bp bs
    | JNull => mkscc a t n h ss ts ∅ rs bp bs
    | _ => s
    end
  else if String.eqb k' "signsecretkey" then mkscc a t n h ss ts rp (rsa_sec_read K v) bp bs
  else if String.eqb k' "thresholdpublicmap" then
    match v with
    | JObj l => mkscc a t n h ss ts rp rs (fold_left (λ m e, <[fst e := tol_bytes "" (snd e)]> m) l bp) bs
    | JNull => mkscc a t n h ss ts rp rs ∅ bs
    | _ => s
    end
  else if String.eqb k' "thresholdsecretkey" then mkscc a t n h ss ts rp rs bp (tol_bytes bs v)
  else s.

(** json.Unmarshal(bytes, scc) with the error ignored: malformed text
    leaves the zero value. *)
Definition scc_parse (file : string) : scc :=
  match parse_json file with
  | Some v => tol_struct scc_tol scc0 v
  | None => scc0
  end.

(** crypto/crypto_IO.go:81-90, ReadCryptoConfig on the contents of the
    file (a missing file is an error). *)
Definition read_cconf (file : string) : cconf P * bool := new_cconf (scc_parse file).

(** crypto/crypto_IO.go:92-101, ReadVerifyOnlyCryptoConfig. *)
Definition read_verify_only (file : string) : cconf P * bool := new_verify_only (scc_parse file).

(** crypto/crypto_IO.go:104-113, ReadBasicCryptoConfig. *)
Definition read_basic (file : string) : cconf P := new_basic (scc_parse file).

(** crypto/crypto_IO.go:73, WriteData of the stored form. *)
Definition write_cconf (c : cconf P) : string := write_data (scc_json (new_stored c)).

(** crypto/crypto_IO.go:66-79, SaveCryptoFiles: one file per
    configuration, later writes replace earlier ones.  Simplification:
    different path strings are different files. *)
Definition crypto_file (dir id : string) : string := dir ++ "/" ++ id ++ ".test.json".

Definition save_crypto_files (dir : string) (cs : list (cconf P)) (fs : gmap string string) : gmap string string :=
  fold_left (λ fs c, <[crypto_file dir (cc_self c) := write_cconf c]> fs) cs fs.

(* ---------------------------------------------------------------- *)
(** * Generating keys *)

(** The randomness: the keys returned by the successive calls of
    rsa.GenerateKey and SetByCSPRNG.  rsa.GenerateKey does not
    fail. *)
Context (rsa_rand : nat -> rsa_sec P) (bls_rand : nat -> bls_sec P).

(** crypto/crypto_IO.go:34-45 (and Gen/Gen.go:246-263, RSA_gen): one RSA
    key per listed entity, the i-th call of the generator. *)
Fixpoint rsa_gen (i : nat) (ids : list string) (pubs : gmap string (rsa_pub P)) (privs : gmap string (rsa_sec P)) :
    gmap string (rsa_pub P) * gmap string (rsa_sec P) :=
  match ids with
  | [] => (pubs, privs)
  | id :: r => rsa_gen (S i) r (<[id := rsa_pub_of K (rsa_rand i)]> pubs) (<[id := rsa_rand i]> privs)
  end.

(** crypto/bls.go:44-58, the loop of GenerateThresholdKeypairs: the
    first [threshold] entities draw their key, the others get a share of
    the polynomial whose coefficients are those keys. *)
Definition bls_gen_key (threshold i : nat) (id : string) : bls_sec P :=
  if Nat.ltb i threshold then bls_rand i else bls_share K (map bls_rand (seq 0 threshold)) id.

Fixpoint bls_gen (threshold i : nat) (ids : list string) (pubs : gmap string (bls_pub P))
    (privs : gmap string (bls_sec P)) : gmap string (bls_pub P) * gmap string (bls_sec P) :=
  match ids with
  | [] => (pubs, privs)
  | id :: r =>
      let sk := bls_gen_key threshold i id in
      bls_gen threshold (S i) r (<[id := bls_pub_of K sk]> pubs) (<[id := sk]> privs)
  end.

(** crypto/bls.go:30-63, GenerateThresholdKeypairs; None: the error for
    thresholds below 2. *)
Definition threshold_keypairs (ids : list string) (threshold : nat) :
    option (gmap string (bls_pub P) * gmap string (bls_sec P)) :=
  if Nat.ltb threshold 2 then None else Some (bls_gen threshold 0 ids ∅ ∅).

(** crypto/crypto_IO.go:19-62, GenerateEntityCryptoConfigs; None: the
    panic after a failed key generation.  4 is SHA256. *)
Definition entity_configs (ids : list string) (threshold : nat) : option (list (cconf P)) :=
  match threshold_keypairs ids threshold with
  | None => None
  | Some (bpubs, bprivs) =>
      let '(rpubs, rprivs) := rsa_gen 0 ids ∅ ∅ in
      Some (map (λ id, mkcconf P threshold (Z.of_nat (length ids)) 4 "rsa" "bls" id rpubs
                         (default (rsa_sec0 K) (rprivs !! id)) bpubs (default (bls_sec0 K) (bprivs !! id))) ids)
  end.

End io.
