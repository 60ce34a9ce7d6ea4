(** What is said about certificate authorities. *)
From Verif Require Import Bytes Types Crypto Merkle Cert CertPool CTngExt Bitset Revocation Clock CA.
From Verif Require Logger SpecLogger.
Open Scope string_scope.

(** Decompression undoes compression. *)
Definition gzip_ok (z : gzip) : Prop := forall s, gz_unpack z (gz_pack z s) = Some s.

(** No standard extension has the CTng object identifier. *)
Definition std_ok (x : x509lib) : Prop := forall c e, e ∈ xl_std x c -> e_oid e <> OID_CTNG.

(** The revocation identifiers a delta or vector contains. *)
Definition revokes (b : bitset) (i : N) : Prop := (i < bs_len b)%N /\ N.testbit (bs_bits b) i = true.

(** The deltas inside published objects, as a receiver decodes them. *)
Definition deltas (z : gzip) (l : list gobj) : list bitset := map (λ g, snd (srh_and_dcrv z g)) l.

(** The vector of a receiver that applies the deltas in order. *)
Definition applied (ds : list bitset) : option bitset :=
  match ds with [] => None | d :: r => Some (fold_left bs_union r d) end.

(** Indexes Go's bitset can hold. *)
Definition index_ok (i : N) : Prop := (i < 18446744073709551615)%N.
Definition indexes_ok (l : list caevent) : Prop :=
  (forall i, CRevoke i ∈ l -> index_ok i) /\ (forall p m, CPeriod p m ∈ l -> forall i, i ∈ p -> index_ok i).

(** No period ends in the history. *)
Definition no_period (l : list caevent) : Prop := forall p m, CPeriod p m ∉ l.

(** Nothing is revoked after the first period end, as in the pinned
    program, where the only revocation is the mass revocation at the first period end. *)
Definition no_late_revocation (l : list caevent) : Prop :=
  forall l1 l2 i, l = (l1 ++ CRevoke i :: l2)%list -> no_period l1.

(** [g] is the first, [h] the second of two statements: same kind, period and
    entity, but different content. *)
Definition evidence (g h : gobj) : Prop := get_id g = get_id h /\ g_p0 g = g_p0 h /\ g_p2 g <> g_p2 h.

(** No extension of a certificate in the pool ever reaches 2 GiB (the limit of
    encoding/asn1), and paths of proofs are 32-bit numbers (their Go type). *)
Definition sizes_ok {P : prims} (x : x509lib) (z : gzip) (c : caconf P) (cc : cconf P) (s : cast) (l : list caevent) : Prop :=
  (forall l1 l2 crt e, l = (l1 ++ l2)%list -> crt ∈ get_certs (a_pool (ca_run x z c cc s l1)) -> e ∈ c_exts crt ->
     (N.of_nat (String.length (e_value e)) < 2147483648)%N) /\
  (forall p q, CPoi p ∈ l -> poi_proof p = Some q -> (pf_path q <= 4294967295)%N).

(** Two stages of one certificate: same subject, key and revocation identifier. *)
Definition same_subject (a b : cert) : Prop := c_subject a = c_subject b /\ c_subject_cn a = c_subject_cn b /\ c_pub a = c_pub b /\ c_ski a = c_ski b.

(** Requests since the last period end, and period ends with at least one request before them. *)
Definition ca_asked (l : list caevent) : Z :=
  fold_left (λ n e, match e with CAsk _ => n + 1 | CPeriod _ _ => 0 | _ => n end)%Z l 0%Z.
Definition ca_active (l : list caevent) : Z :=
  snd (fold_left (λ '(n, a) e, match e with
                               | CAsk _ => (n + 1, a)
                               | CPeriod _ _ => (0, if 0 <? n then a + 1 else a)
                               | _ => (n, a)
                               end)%Z l (0%Z, 0%Z)).

(** What a CA shows for each behaviour of SpecLogger. *)
Definition shown_rev (s : cast) (m : nat) (b : SpecLogger.behaviour) : Logger.reply :=
  match b with
  | SpecLogger.Honest => Logger.Answer (Logger.obj_at (a_rev s) (unpadded m))
  | SpecLogger.Equivocate => Logger.Answer (Logger.obj_at (a_fake s) (unpadded m))
  | SpecLogger.Refuse => Logger.Silent
  end.

(** No revocation object for minute [m] is made in the history. *)
Definition no_period_for (m : nat) (l : list caevent) : Prop := forall p m', CPeriod p m' ∈ l -> S m' <> m.

(** What a handler adds to a certificate for the proof [p]: the proof and the stored tree head of its logger. *)
Definition info_of (s : cast) (p : poi) : loginfo := mkloginfo (Logger.obj_at (a_sths s) (poi_logger p)) p.

(** A schedule of handlers of proofs of inclusion: handler [k] works on the proof [ps !! k],
    reads at most once and writes at most once, after its read. *)
Definition handlers (ps : gmap nat poi) (l : list poi_event) : Prop :=
  (forall k p, PoiRead k p ∈ l -> ps !! k = Some p) /\ NoDup l /\
  (forall l1 k l2, l = (l1 ++ PoiWrite k :: l2)%list -> exists p, PoiRead k p ∈ l1).

(** Each handler works on another certificate. *)
Definition different (ps : gmap nat poi) : Prop :=
  forall k k' p p', ps !! k = Some p -> ps !! k' = Some p' -> k <> k' -> poi_ski p <> poi_ski p'.
