(** What is said about entries of certificates staying there. *)
From Verif Require Import Bytes Types Crypto Verify Merkle Cert CertPool CTngExt Clock Bitset Revocation CA SpecCA FineCA.
Open Scope string_scope.

Section spec.
Context {P : prims} (x : x509lib) (z : gzip) (c : caconf P) (cc : cconf P).
(** No task replaces the pool in the history [l] from [y] on. *)
Definition no_clear (y : fca) (l : list cfev) : Prop :=
  forall l1 n m ps l2, l = (l1 ++ FRun n m ps :: l2)%list -> fc_go (fst (cfrun x z c cc y l1)) !! n <> Some AClear.
End spec.

(** The certificate for key identifier [k] in the pool has the entry [i]. *)
Definition entered (y : fca) (k : string) (i : loginfo) : Prop :=
  exists crt, get_by_ski (a_pool (fc_st y)) k = Some crt /\ i ∈ x_infos (parse_ctng crt).
