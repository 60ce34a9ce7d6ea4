(** Vocabulary of the statements about generated deployments. *)
From Verif Require Import Bytes Hex Json Crypto CryptoIO SpecCryptoIO Gen.
Open Scope string_scope.

Section spec.
Context {P : prims} (K : keyio P).

(** Keys survive their encodings; a BLS secret key that does not is the
    zero key, which is what a failed decoding leaves. *)
Definition keys_ok : Prop :=
  rsa_json_ok K /\ (forall k, bls_pub_deser K (bls_pub_ser K k) = Some k) /\
  (forall k, default (bls_sec0 K) (bls_sec_deser K (bls_sec_ser K k)) = k).

(** The crypto configuration an entity starts with (the InitializeXContext
    functions ignore the error of ReadCryptoConfig) and the
    identity in it. *)
Definition config_of {A B} (e : entity A B) : cconf P := fst (read_cconf K (e_crypto e)).
Definition identity {A B} (e : entity A B) : string := cc_self (config_of e).

(** The configurations of all entities. *)
Definition all_configs (d : deployment) : list (cconf P) :=
  (map config_of (dp_cas d) ++ map config_of (dp_loggers d) ++ map config_of (dp_monitors d) ++ map config_of (dp_gossipers d))%list.

(** The address of the i-th entity of a kind after the mapping: its IP and
    its port. *)
Definition address (t : iptable) (k : kind) (i : nat) : string := ip_of t k i ++ ":" ++ port k i.

Definition addresses (t : iptable) (k : kind) (n : nat) : list string := map (address t k) (seq 0 n).

(** [new] is [old] with every generated URL replaced by the address of
    the entity it names, and nothing else. *)
Definition renamed {V} (t : iptable) (old new : gmap string V) : Prop :=
  forall a v, new !! a = Some v <-> exists k i, a = address t k i /\ i < 1000 /\ old !! url k i = Some v.

(** [c'] is [c] after the mapping: the same secret keys and parameters, with
    identities replaced by addresses. *)
Definition remapped (t : iptable) (c c' : cconf P) : Prop :=
  (exists k i, cc_self c = url k i /\ cc_self c' = address t k i /\ i < 1000) /\
  renamed t (cc_rsa_pubs c) (cc_rsa_pubs c') /\ renamed t (cc_bls_pubs c) (cc_bls_pubs c') /\
  cc_rsa_sec c' = cc_rsa_sec c /\ cc_bls_sec c' = cc_bls_sec c /\ cc_threshold c' = cc_threshold c /\ cc_n c' = cc_n c /\
  cc_hash c' = cc_hash c /\ cc_sign_scheme c' = cc_sign_scheme c /\ cc_thr_scheme c' = cc_thr_scheme c.

End spec.
