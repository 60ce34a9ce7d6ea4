(** What the theorems about crypto configurations and their files
    assume about key encodings, and the vocabulary of the statements. *)
From Verif Require Import Bytes Hex Base64 Json JsonFacts Crypto CTngExt CryptoIO.
Open Scope string_scope.

Section spec.
Context {P : prims} (K : keyio P).

(** RSA keys survive encoding/json (they consist of integers). *)
Record rsa_json_ok : Prop := mkrsa_json_ok {
  rsa_pub_valid : forall k, wf_json (rsa_pub_json K k);
  rsa_pub_back : forall k, rsa_pub_read K (rsa_pub_json K k) = k;
  rsa_sec_valid : forall k, wf_json (rsa_sec_json K k);
  rsa_sec_back : forall k, rsa_sec_read K (rsa_sec_json K k) = k
}.

(** The BLS keys of a configuration survive serialisation. *)
Definition bls_pubs_ok (c : cconf P) : Prop :=
  forall id k, cc_bls_pubs c !! id = Some k -> bls_pub_deser K (bls_pub_ser K k) = Some k.

Definition bls_sec_ok (c : cconf P) : Prop := bls_sec_deser K (bls_sec_ser K (cc_bls_sec c)) = Some (cc_bls_sec c).

(** The integers of a configuration are Go ints. *)
Definition go_int (z : Z) : Prop := (- 9223372036854775808 <= z <= 9223372036854775807)%Z.

Definition ints_ok (c : cconf P) : Prop :=
  go_int (Z.of_nat (cc_threshold c)) /\ go_int (cc_n c) /\ go_int (cc_hash c).

(** Two configurations that differ at most in the secret keys. *)
Definition same_public (c d : cconf P) : Prop :=
  cc_threshold c = cc_threshold d /\ cc_n c = cc_n d /\ cc_hash c = cc_hash d /\
  cc_sign_scheme c = cc_sign_scheme d /\ cc_thr_scheme c = cc_thr_scheme d /\ cc_self c = cc_self d /\
  cc_rsa_pubs c = cc_rsa_pubs d /\ cc_bls_pubs c = cc_bls_pubs d.

(** Signatures by a key verify under its public key. *)
Definition rsa_correct : Prop := forall sk m, rsa_check (rsa_pub_of K sk) m (rsa_sign sk m) = true.
Definition bls_correct : Prop := forall sk m, bls_check (bls_pub_of K sk) m (bls_sign sk m) = true.

End spec.
