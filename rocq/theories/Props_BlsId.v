(** C122 *)
From Verif Require Import Bytes Hex Crypto CryptoIO Gen BlsId SpecBlsId BlsIdFacts.
From Coq Require Import Lia.
Open Scope string_scope.

(** C122: every name of an entity has its own identifier in the threshold scheme - REFUTED: two names have the same, others have none ... *)
Theorem C122_same_refuted : exists a b n, a <> b /\ bls_id a = Some n /\ bls_id b = Some n.
Proof. exact same_identifier. Qed.
Print Assumptions C122_same_refuted.
Theorem C122_none_refuted : bls_id "gossiper-17.example-university.edu:9000" = None.
Proof. exact no_identifier. Qed.
Print Assumptions C122_none_refuted.

(** ... and the mapping back gives another name, if identifiers are written with 32 bytes. *)
Theorem C122_reverse_refuted : forall ser s n, (forall m, len (ser m) = 32) -> bls_id s = Some n -> len s <> 32 -> ctng_id ser n <> Some s.
Proof. exact reverse_wrong. Qed.
Print Assumptions C122_reverse_refuted.

(** Names that do not begin with a zero byte have different identifiers if they have one. *)
Theorem C122_unique_partial : forall a b n, good_name a -> good_name b -> bls_id a = Some n -> bls_id b = Some n -> a = b.
Proof. exact ids_unique. Qed.
Print Assumptions C122_unique_partial.

(** There is none if the name, read as a number, reaches the order of the group; up to 31 bytes are always fine, 33 never. *)
Theorem C122_panics_iff : forall s, bls_id s = None <-> s = "" \/ (group_order <= number_of s)%N.
Proof. exact panics_iff. Qed.
Print Assumptions C122_panics_iff.
Theorem C122_short : forall s, s <> "" -> len s <= 31 -> is_Some (bls_id s).
Proof. exact short_ok. Qed.
Print Assumptions C122_short.
Theorem C122_long : forall s, good_name s -> 33 <= len s -> bls_id s = None.
Proof. exact long_panics. Qed.
Print Assumptions C122_long.

(** Generating keys: an error for thresholds below 2, a panic exactly if a name has no identifier, otherwise the numbers of the names and the keys. *)
Theorem C122_keygen : forall (P : prims) (K : keyio P) bls_rand ids t,
  match generate_keypairs K bls_rand ids t with
  | KgError => t < 2
  | KgPanic => 2 <= t /\ exists id, id ∈ ids /\ (id = "" \/ (group_order <= number_of id)%N)
  | KgKeys ns pubs privs => 2 <= t /\ ns = map number_of ids /\ (forall id, id ∈ ids -> id <> "" /\ (number_of id < group_order)%N) /\
      threshold_keypairs K bls_rand ids t = Some (pubs, privs)
  end.
Proof. exact @keygen_outcome. Qed.
Print Assumptions C122_keygen.

(** The gossipers of a generated deployment of at most 1000 get different identifiers. *)
Theorem C122_generated : forall (P : prims) (K : keyio P) bls_rand n, 2 <= n <= 1000 ->
  exists ns pubs privs, generate_keypairs K bls_rand (urls KGossiper n) n = KgKeys ns pubs privs /\ NoDup ns /\ length ns = n.
Proof. exact @generated_good. Qed.
Print Assumptions C122_generated.

Example C122_ex : good_name "localhost:9000" /\ good_name "localhost:9001" /\ is_Some (bls_id "localhost:9000") /\ is_Some (bls_id "localhost:9001") /\
  good_name "gossiper-17.example-university.edu:9000" /\ 33 <= len "gossiper-17.example-university.edu:9000".
Proof.
  split_and!; try (by eexists _, _); try (vm_compute; eauto; done); [by apply short_ok; [|cbn; lia]..|cbn; lia].
Qed.
