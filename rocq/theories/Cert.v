(** crypto/x509 certificates, as far as CTngV2 looks at them. *)
From Verif Require Import Bytes.
Open Scope string_scope.

(** pkix.Extension; the object identifier in dotted form. *)
Record ext : Type := mkext { e_oid : string; e_critical : bool; e_value : string }.

(** x509.Certificate: Raw, RawTBSCertificate, RawSubject, RawIssuer,
    Subject.CommonName, Issuer.CommonName, SubjectKeyId, AuthorityKeyId,
    the PKIX form of PublicKey, SerialNumber, Signature, Extensions,
    ExtraExtensions.  [c_misc] stands for validity, key usages, host
    names and IsCA, which no modelled function inspects.  nil and empty
    slices are identified. *)
Record cert : Type := mkcert {
  c_raw : string;
  c_tbs : string;
  c_subject : string;
  c_issuer : string;
  c_subject_cn : string;
  c_issuer_cn : string;
  c_ski : string;
  c_aki : string;
  c_pub : string;
  c_serial : Z;
  c_sig : string;
  c_exts : list ext;
  c_extra : list ext;
  c_misc : string
}.

Global Instance ext_eq_dec : EqDecision ext.
Proof. solve_decision. Defined.
Global Instance cert_eq_dec : EqDecision cert.
Proof. solve_decision. Defined.

(** util/IO.go:176-192, ParseTBSCertificate: Raw, RawTBSCertificate, RawIssuer,
    AuthorityKeyId, Signature and both extension lists are left
    zero. *)
Definition tbs_certificate (c : cert) : cert :=
  mkcert "" "" (c_subject c) "" (c_subject_cn c) (c_issuer_cn c) (c_ski c) "" (c_pub c) (c_serial c) "" [] [] (c_misc c).

(** Certificate.Equal: byte equality of Raw. *)
Definition cert_equal (a b : cert) : bool := String.eqb (c_raw a) (c_raw b).

(** The same certificate with other extensions. *)
Definition set_exts (c : cert) (l : list ext) : cert :=
  mkcert (c_raw c) (c_tbs c) (c_subject c) (c_issuer c) (c_subject_cn c) (c_issuer_cn c) (c_ski c) (c_aki c)
         (c_pub c) (c_serial c) (c_sig c) l (c_extra c) (c_misc c).
Definition set_extra (c : cert) (l : list ext) : cert :=
  mkcert (c_raw c) (c_tbs c) (c_subject c) (c_issuer c) (c_subject_cn c) (c_issuer_cn c) (c_ski c) (c_aki c)
         (c_pub c) (c_serial c) (c_sig c) (c_exts c) l (c_misc c).
