(** What is said about CAs whose tasks and handlers interleave. *)
From Verif Require Import Bytes Types Crypto Verify Merkle Cert CertPool CTngExt Clock Bitset Revocation CA SpecCA FineCA.
Open Scope string_scope.

(** The certificates signed. *)
Definition signed (o : list cout) : list cert := concat (map (λ e, match e with CSigned crt => [crt] | _ => [] end) o).

(** The goroutine is a period task that has not yet signed all its certificates. *)
Definition issuing (a : cgoro) : bool := match a with AWipe _ | AOffset _ | AMake _ _ _ _ | ABump _ _ _ _ _ => true | _ => false end.

(** Only positions that a bitset can hold are revoked. *)
Definition positions_ok (l : list cfev) : Prop := (forall i, FRevoke i ∈ l -> index_ok i) /\ (forall n m ps i, FRun n m ps ∈ l -> i ∈ ps -> index_ok i).

(** The task is not about to store a revocation object under [k]. *)
Definition other_minute (k : string) (a : cgoro) : Prop := match a with AReal p | AFake p _ | APre p _ _ | AKeep p _ _ => p <> k | _ => True end.

Section spec.
Context {P : prims} (x : x509lib) (z : gzip) (c : caconf P) (cc : cconf P).

(** A period task starts only when no other one is still issuing. *)
Definition one_issuer (y : fca) (l : list cfev) : Prop :=
  forall l1 ds l2 a, l = (l1 ++ FTick ds :: l2)%list -> a ∈ fc_go (fst (cfrun x z c cc y l1)) -> issuing a = false.

(** [v] was the CA's vector at some moment of the history. *)
Definition was_vector (y : fca) (l : list cfev) (v : bitset) : Prop :=
  exists l1 l2, l = (l1 ++ l2)%list /\ v = v_cur (a_crv (fc_st (fst (cfrun x z c cc y l1)))).

(** [g] is a revocation object of the CA for minute [m], and verifies. *)
Definition own_object (m : nat) (g : gobj) : Prop :=
  g_type g = REV_INIT /\ g_signer g = cac_signer c /\ g_period g = unpadded m /\ verify cc g = Accept.

(** Its delta is [d], and it is signed over the vector [v] and this delta. *)
Definition says (m : nat) (g : gobj) (v d : bitset) : Prop :=
  srh_and_dcrv z g = (rsa_sign_string (cac_key c) (cac_self c) (srh_message (P := P) (unpadded m) v d), d).

(** The proof was received, and the head filed with it is empty or a verified head of the same logger that was received. *)
Definition info_from (l : list cfev) (i : loginfo) : Prop :=
  FProof (li_poi i) ∈ l /\
  (li_sth i = zero_obj \/ FHead (li_sth i) ∈ l /\ verify cc (li_sth i) = Accept /\ g_signer (li_sth i) = poi_logger (li_poi i)).

(** No extension of a certificate in the pool, or about to be put there, ever reaches 2 GiB (the limit of encoding/asn1), and paths of proofs are 32-bit numbers (their Go type). *)
Definition fine_sizes (y : fca) (l : list cfev) : Prop :=
  (forall l1 l2 crt e, l = (l1 ++ l2)%list ->
     crt ∈ get_certs (a_pool (fc_st (fst (cfrun x z c cc y l1)))) \/ (exists k, PWrite k crt ∈ fc_go (fst (cfrun x z c cc y l1))) -> e ∈ c_exts crt ->
     (N.of_nat (String.length (e_value e)) < 2147483648)%N) /\
  (forall q pf, FProof q ∈ l -> poi_proof q = Some pf -> (pf_path pf <= 4294967295)%N).
End spec.
