(** What is said about the certificates a CA signs. *)
From Verif Require Import Bytes Types Crypto Cert CertPool CTngExt CA.
Open Scope string_scope.

(** The certificate without encodings and signature. *)
Definition unsigned (f : cert) : cert :=
  mkcert "" "" (c_subject f) (c_issuer f) (c_subject_cn f) (c_issuer_cn f) (c_ski f) (c_aki f) (c_pub f) (c_serial f) "" (c_exts f) [] (c_misc f).

(** The signed bytes encode exactly the fields of the certificate, the signature is the CA's over them, and the certificate consists of both; it is issued in the name of the CA; and it has one CTng
    extension, which is not critical, so a verifier that does not know it may ignore it. *)
Definition well_signed {P : prims} (x : x509lib) (c : caconf P) (f : cert) : Prop :=
  c_tbs f = xl_tbs x (unsigned f) /\ c_sig f = rsa_sign (cac_key c) (c_tbs f) /\ c_raw f = xl_wrap x (c_tbs f) (c_sig f) /\ c_issuer_cn f = cac_signer c /\
  exists v, List.filter (λ e, String.eqb (e_oid e) OID_CTNG) (c_exts f) = [mkext OID_CTNG false v].
