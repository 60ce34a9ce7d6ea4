(** CA/CRV.go and the decoding functions of monitor/types.go and client/parser.go:
    revocation vectors and signed revocation objects. *)
From Verif Require Import Bytes Hex Base64 Json Types Crypto CTngExt Bitset.
Open Scope string_scope.

(** compress/gzip behind util/helpers.go:154-175, CompressData and
    DecompressData ([None]: error, and then the bytes are nil). *)
Record gzip : Type := mkgzip { gz_pack : string -> string; gz_unpack : string -> option string }.

(** The number of revocation identifiers (CA/CRV.go:45-46, 58). *)
Definition crv_size : N := 1000000.

(** CA/CRV.go:32-36, CRV: the vector and the pointer CRV_pre_update; [None] says
    that it points to the very same set as CRV_current. *)
Record crv : Type := mkcrv { v_cur : bitset; v_pre : option bitset }.

(** CA/CRV.go:44-50, CRV_init. *)
Definition crv_init : crv := mkcrv (bs_new crv_size) (Some (bs_new crv_size)).

(** CA/CRV.go:53-67, GetDeltaCRV before marshalling. *)
Definition crv_delta (v : crv) : bitset :=
  match v_pre v with
  | None => bs_new crv_size
  | Some p => bs_symdiff (v_cur v) p
  end.

(** CA/CRV.go:82-84, Revoke; and one round of lines 89-91, MassRevoke. *)
Definition crv_revoke (v : crv) (i : N) : crv := mkcrv (bs_set (v_cur v) i) (v_pre v).

(** CA/CRV.go:86-92, MassRevoke, for the random positions [l]. *)
Definition crv_mass_revoke (v : crv) (l : list N) : crv := fold_left crv_revoke l v.

(** CA/server.go:411, ctx.CRV.CRV_pre_update = ctx.CRV.CRV_current: the pointer
    is copied. *)
Definition crv_next (v : crv) : crv := mkcrv (v_cur v) None.

(** CA/CRV.go:38-42, Revocation (the same as definition/Types.go:29-33). *)
Record revocation : Type := mkrev { rv_period : string; rv_delta : string; rv_srh : string }.
Definition zero_rev : revocation := mkrev "" "" "".

(** json.Marshal(revocation): []byte in base64. *)
Definition rev_json (r : revocation) : json :=
  JObj [("Period", JStr (rv_period r)); ("Delta_CRV", JStr (b64_encode (rv_delta r))); ("SRH", JStr (rv_srh r))].
Definition rev_marshal (r : revocation) : string := print_json (rev_json r).

(** json.Unmarshal whose error is only printed (monitor/types.go:364-368,
    client/parser.go:15-19). *)
Definition rev_tol (r : revocation) (kv : string * json) : revocation :=
  let '(k, v) := kv in
  let k' := lower_str k in
  if String.eqb k' "period" then mkrev (tol_string (rv_period r) v) (rv_delta r) (rv_srh r)
  else if String.eqb k' "delta_crv" then mkrev (rv_period r) (tol_bytes (rv_delta r) v) (rv_srh r)
  else if String.eqb k' "srh" then mkrev (rv_period r) (rv_delta r) (tol_string (rv_srh r) v)
  else r.
Definition rev_unmarshal (s : string) : revocation :=
  match parse_json s with Some v => tol_struct rev_tol zero_rev v | None => zero_rev end.

(** monitor/types.go:363-378 and client/parser.go:14-29, Get_SRH_and_DCRV: no
    error stops the function; an unreadable delta is the zero set. *)
Definition srh_and_dcrv (z : gzip) (g : gobj) : string * bitset :=
  let r := rev_unmarshal (g_p2 g) in
  (rv_srh r, default bs_zero (bs_unmarshal (default "" (gz_unpack z (rv_delta r))))).

Section with_prims.
Context {P : prims}.

(** The message that is signed: CA/CRV.go:97-118, and lines 109-115 of
    client/client.go, 500-505 of monitor/monitor.go, on the checking side. *)
Definition srh_message (period : string) (whole delta : bitset) : string :=
  h_sha256 P (period ++ h_sha256 P (bs_marshal whole) ++ h_sha256 P (bs_marshal delta)).

(** crypto/rsa.go:26-36, RSASign, printed. *)
Definition rsa_sign_string (sk : rsa_sec P) (id m : string) : string :=
  rsasig_string (mkrsasig (rsa_sign sk m) id).

(** CA/CRV.go:99-115, inside Generate_Revocation; [fake] is REV_type == 1 (any type
    but 0): the delta is decoded again and bit 1 + OnlineDuration added.  (The
    panic of line 110 would need an encoding that does not decode.) *)
Definition revocation_delta (v : crv) (online : Z) (fake : bool) : bitset :=
  if fake then bs_set (default bs_zero (bs_unmarshal (bs_marshal (crv_delta v)))) (to_uint (1 + online))
  else crv_delta v.

(** CA/CRV.go:94-146, Generate_Revocation. *)
Definition generate_revocation (z : gzip) (sk : rsa_sec P) (self signer : string) (v : crv) (online : Z)
    (period : string) (fake : bool) : gobj :=
  let d := revocation_delta v online fake in
  let srh := rsa_sign_string sk self (srh_message period (v_cur v) d) in
  let p2 := rev_marshal (mkrev period (gz_pack z (bs_marshal d)) srh) in
  mkobj "CTng" period REV_INIT signer [] (rsa_sign_string sk self (signer ++ "CRV" ++ p2)) "" "" "RSA" signer "CRV" p2.

(** client/client.go:101-128 and monitor/monitor.go:493-521, VerifySRH: [old] is
    the stored vector of the CA.  The key is that of the
    identity inside the signature string. *)
Definition verify_srh (c : cconf P) (srh : string) (d : bitset) (old : option bitset) (period : string) : verdict :=
  let s := default (mkrsasig "" "") (rsasig_from_string srh) in
  match cc_rsa_pubs c !! rs_id s with
  | Some pk => if rsa_check pk (srh_message period (default d old) d) (rs_sig s) then Accept else Reject
  | None => if rsa_nokey_panics P then Panics else Reject
  end.
End with_prims.
