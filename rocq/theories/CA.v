(** CA/ca.go, CA/server.go and the context of CA/types.go. *)
From Verif Require Import Bytes Hex Base64 Json Types Crypto Verify Cert CertPool CTngExt Clock Bitset Revocation.
From Verif Require Logger.
Notation reply := Logger.reply.
Notation Answer := Logger.Answer.
Notation Silent := Logger.Silent.
Notation HandlerPanic := Logger.HandlerPanic.
Notation obj_at := Logger.obj_at.
Open Scope string_scope.

(** crypto/x509's encoder: DER of a name that has only a common name, the standard
    extensions (usages, constraints, key identifiers, hosts), the DER of
    the part to be signed, and of the signed certificate. *)
Record x509lib : Type := mkx509 {
  xl_name : string -> string;
  xl_std : cert -> list ext;
  xl_tbs : cert -> string;
  xl_wrap : string -> string -> string
}.

Section ca.
Context {P : prims}.
Notation h := (h_sha256 P).

(** CA/types.go:62-69 and the crypto configuration: Signer, Loggerlist, the identity and
    secret key used for signing, the public key in PKIX form. *)
Record caconf : Type := mkcaconf {
  cac_signer : string;
  cac_loggers : list string;
  cac_self : string;
  cac_key : rsa_sec P;
  cac_pub : string
}.

(** What is drawn at random for a certificate: serial number and the
    subject's public key; with it the fields no function looks at. *)
Record draw : Type := mkdraw { d_serial : Z; d_pub : string; d_misc : string }.

(** CA/ca.go:20-68, Genrate_Unsigned_PreCert, with the counter as
    argument; the caller increments it. *)
Definition unsigned_precert (issuer subject : string) (counter : Z) (d : draw) : cert :=
  mkcert "" "" "" "" subject issuer "" "" "" (d_serial d) "" []
         [mkext OID_CTNG false (encode_ctng (mkctng counter []))] (d_misc d).

(** x509.CreateCertificate's choice of an encoded name. *)
Definition name_of (x : x509lib) (c : cert) : string :=
  if is_empty (c_subject c) then xl_name x (c_subject_cn c) else c_subject c.

(** CA/ca.go:71-93, Sign_certificate: CreateCertificate followed by
    ParseCertificate.  Extensions of the template are ignored,
    ExtraExtensions are appended to the standard ones.  (log.Fatalf on errors of the library is not
    modelled.) *)
Definition sign_certificate (x : x509lib) (key : rsa_sec P) (tmpl parent : cert) (pub : string) : cert :=
  let ski := if is_empty (c_ski tmpl) then h pub else c_ski tmpl in
  let subject := name_of x tmpl in
  let issuer := name_of x parent in
  let aki := if negb (String.eqb issuer subject) && negb (is_empty (c_ski parent)) then c_ski parent else c_aki tmpl in
  let body := mkcert "" "" subject issuer (c_subject_cn tmpl) (c_subject_cn parent) ski aki pub (c_serial tmpl) "" [] []
                     (c_misc tmpl) in
  let body := set_exts body (xl_std x body ++ c_extra tmpl)%list in
  let tbs := xl_tbs x body in
  let sig := rsa_sign key tbs in
  mkcert (xl_wrap x tbs sig) tbs subject issuer (c_subject_cn tmpl) (c_subject_cn parent) ski aki pub (c_serial tmpl) sig
         (c_exts body) [] (c_misc tmpl).

(** CA/types.go:20-49, CAContext: the mutable fields in use. *)
Record cast : Type := mkcast {
  a_pool : pool;
  a_root : cert;
  a_counter : Z;
  a_crv : crv;
  a_type : Z;
  a_interval : Z;
  a_count : Z;
  a_online : Z;
  a_rev : gmap string gobj;
  a_fake : gmap string gobj;
  a_sths : gmap string gobj;
  a_fresh : bool
}.

(** CA/ca.go:96-105 and 115-121, Generate_Root_Certificate: two templates are made (the first one is the parent),
    and the counter is decremented once. Result: certificate and counter. *)
Definition generate_root (x : x509lib) (c : caconf) (counter : Z) (d1 d2 : draw) : cert * Z :=
  let parent := unsigned_precert (cac_signer c) (cac_signer c) counter d1 in
  let tmpl := unsigned_precert (cac_signer c) (cac_signer c) (counter + 1) d2 in
  (sign_certificate x (cac_key c) tmpl parent (cac_pub c), (counter + 2 - 1)%Z).

(** CA/types.go:297-344, InitializeCAContext; type and interval are set
    afterwards by the test programs. *)
Definition ca_init (x : x509lib) (c : caconf) (ty k : Z) (d1 d2 : draw) : cast :=
  let '(root, n) := generate_root x c 0 d1 d2 in
  mkcast new_pool root n crv_init ty k 0 0 ∅ ∅ ∅ true.

Definition set_a_pool (s : cast) (p : pool) : cast :=
  mkcast p (a_root s) (a_counter s) (a_crv s) (a_type s) (a_interval s) (a_count s) (a_online s) (a_rev s) (a_fake s) (a_sths s) (a_fresh s).
Definition set_a_count (s : cast) (n : Z) : cast :=
  mkcast (a_pool s) (a_root s) (a_counter s) (a_crv s) (a_type s) (a_interval s) n (a_online s) (a_rev s) (a_fake s) (a_sths s) (a_fresh s).
Definition set_a_sths (s : cast) (m : gmap string gobj) : cast :=
  mkcast (a_pool s) (a_root s) (a_counter s) (a_crv s) (a_type s) (a_interval s) (a_count s) (a_online s) (a_rev s) (a_fake s) m (a_fresh s).
Definition set_a_crv (s : cast) (v : crv) : cast :=
  mkcast (a_pool s) (a_root s) (a_counter s) v (a_type s) (a_interval s) (a_count s) (a_online s) (a_rev s) (a_fake s) (a_sths s) (a_fresh s).
Definition set_a_counter (s : cast) (n : Z) : cast :=
  mkcast (a_pool s) (a_root s) n (a_crv s) (a_type s) (a_interval s) (a_count s) (a_online s) (a_rev s) (a_fake s) (a_sths s) (a_fresh s).

(** CA/ca.go:124-130 and 180-189, Generate_N_Signed_PreCert_with_priv; the common name
    of the [i]-th subject is "Testing Dummy " and [i + offset].  One certificate per
    element of the list of draws, so its length is Cert_per_period. *)
Fixpoint generate_n (x : x509lib) (c : caconf) (root : cert) (offset i counter : Z) (ds : list draw) : list cert :=
  match ds with
  | [] => []
  | d :: r =>
      let tmpl := unsigned_precert (cac_signer c) ("Testing Dummy " ++ itoa (i + offset)) counter d in
      sign_certificate x (cac_key c) tmpl root (d_pub d) :: generate_n x c root offset (i + 1) (counter + 1) r
  end.

(** What a CA sends. *)
Inductive camsg := PrecertTo (logger : string) (c : cert).

(** CA/server.go:337-374, first part of PeriodicTask: wipe the tree heads, issue, add the
    precertificates to the pool and send the signed ones to all loggers. *)
Definition issue (x : x509lib) (c : caconf) (s : cast) (ds : list draw) : cast * list cert * list camsg :=
  let certs := generate_n x c (a_root s) (a_counter s) 0 (a_counter s) ds in
  let s := set_a_sths s ∅ in
  let s := set_a_counter s (a_counter s + Z.of_nat (length ds)) in
  let s := set_a_pool s (fold_left add_cert (map precert_of certs) (a_pool s)) in
  (s, certs, concat (map (λ crt, map (λ l, PrecertTo l crt) (cac_loggers c)) certs)).

(** CA/server.go:213-233, receive_sth for a body that decodes to [g]; a panic
    ends the request, not the process. *)
Definition receive_sth (cc : cconf P) (s : cast) (g : gobj) : cast * bool :=
  match verify cc g with
  | Accept => (set_a_sths s (<[g_signer g := g]> (a_sths s)), true)
  | _ => (s, false)
  end.

(** CA/server.go:236-263, receive_poi, executed without interruption. *)
Definition receive_poi (s : cast) (p : poi) : cast :=
  let i := mkloginfo (obj_at (a_sths s) (poi_logger p)) p in
  match get_by_ski (a_pool s) (poi_ski p) with
  | None => s
  | Some crt => set_a_pool s (update_by_ski (a_pool s) (poi_ski p) (update_ctng crt i))
  end.

(** The same handler running concurrently with others.  Lines 248-258 read the tree head and the certificate (no lock)
    and compute the new extension; lines 258-262 put it in place.  The Go
    code writes the extension value inside the shared certificate, here the
    whole certificate is stored: the fields other than the extension never change. *)
Inductive poi_event := PoiRead (k : nat) (p : poi) | PoiWrite (k : nat).
Definition poi_threads : Type := gmap nat (poi * cert).
Definition poi_step (st : cast * poi_threads) (e : poi_event) : cast * poi_threads :=
  let '(s, ts) := st in
  match e with
  | PoiRead k p =>
      match get_by_ski (a_pool s) (poi_ski p) with
      | None => (s, ts)
      | Some crt => (s, <[k := (p, update_ctng crt (mkloginfo (obj_at (a_sths s) (poi_logger p)) p))]> ts)
      end
  | PoiWrite k =>
      match ts !! k with
      | None => (s, ts)
      | Some (p, crt) => (set_a_pool s (update_by_ski (a_pool s) (poi_ski p) crt), delete k ts)
      end
  end.

(** CA/server.go:134-210, requestREV at minute [m]. *)
Definition request_rev (s : cast) (m : nat) : cast * reply :=
  let n := if Z.eqb (a_type s) 0 then 1%Z else (a_count s + 1)%Z in
  let s := if Z.eqb (a_type s) 0 then s else set_a_count s (a_count s + 1) in
  let real := Answer (obj_at (a_rev s) (unpadded m)) in
  let fake := Answer (obj_at (a_fake s) (unpadded m)) in
  let hit := Z.eqb (Z.rem n (a_interval s)) 0 in
  let second := Z.eqb (a_online s) 1 in
  let on_hit (r : reply) := if Z.eqb (a_interval s) 0 then HandlerPanic else r in
  (s, match a_type s with
      | 0%Z => real
      | 1%Z => on_hit (if hit && second then fake else real)
      | 2%Z => Silent
      | 3%Z => on_hit (if hit || second then Silent else real)
      | 4%Z => on_hit (if hit && second then fake else real)
      | 5%Z => if second then Silent else real
      | 6%Z => on_hit (if hit && second then Silent else real)
      | _ => Silent
      end).

(** CA/server.go:375-437, f1 at minute [m]: mass revocation the first time (of the random
    positions [l]), both revocation objects for the next minute, pointer update, counters,
    new pool. *)
Definition ca_end_period (z : gzip) (c : caconf) (s : cast) (l : list N) (m : nat) : cast :=
  let v := if a_fresh s then crv_mass_revoke (a_crv s) l else a_crv s in
  let period := unpadded (S m) in
  let gen := generate_revocation z (cac_key c) (cac_self c) (cac_signer c) v (a_online s) period in
  mkcast new_pool (a_root s) (a_counter s) (crv_next v) (a_type s) (a_interval s) 0
         (if Z.ltb 0 (a_count s) then a_online s + 1 else a_online s)
         (<[period := gen false]> (a_rev s)) (<[period := gen true]> (a_fake s)) (a_sths s) false.

(** CA/server.go:300-317, SignAllCerts: final certificates for everything in the pool. *)
Definition sign_all (x : x509lib) (c : caconf) (s : cast) : list cert :=
  map (λ crt, let t := update_for_signing crt in sign_certificate x (cac_key c) t (a_root s) (c_pub t)) (get_certs (a_pool s)).

(** What happens to a CA. *)
Inductive caevent :=
| CIssue (ds : list draw)
| CSth (g : gobj)
| CPoi (p : poi)
| CAsk (m : nat)
| CRevoke (i : N)
| CPeriod (l : list N) (m : nat).

Definition ca_step (x : x509lib) (z : gzip) (c : caconf) (cc : cconf P) (s : cast) (e : caevent) : cast :=
  match e with
  | CIssue ds => fst (fst (issue x c s ds))
  | CSth g => fst (receive_sth cc s g)
  | CPoi p => receive_poi s p
  | CAsk m => fst (request_rev s m)
  | CRevoke i => set_a_crv s (crv_revoke (a_crv s) i)
  | CPeriod l m => ca_end_period z c s l m
  end.

(** Certificates issued at a step, and the revocation object published at it. *)
Definition ca_issued (x : x509lib) (c : caconf) (s : cast) (e : caevent) : list cert :=
  match e with CIssue ds => snd (fst (issue x c s ds)) | _ => [] end.
Definition ca_published (z : gzip) (c : caconf) (s : cast) (e : caevent) : list gobj :=
  match e with CPeriod l m => [obj_at (a_rev (ca_end_period z c s l m)) (unpadded (S m))] | _ => [] end.

Definition ca_run (x : x509lib) (z : gzip) (c : caconf) (cc : cconf P) (s : cast) (l : list caevent) : cast :=
  fold_left (ca_step x z c cc) l s.

(** All certificates issued and all revocation objects published in a history. *)
Fixpoint all_issued x z c cc (s : cast) (l : list caevent) : list cert :=
  match l with [] => [] | e :: r => (ca_issued x c s e ++ all_issued x z c cc (ca_step x z c cc s e) r)%list end.
Fixpoint all_published x z c cc (s : cast) (l : list caevent) : list gobj :=
  match l with [] => [] | e :: r => (ca_published z c s e ++ all_published x z c cc (ca_step x z c cc s e) r)%list end.
End ca.
Arguments caconf : clear implicits.
