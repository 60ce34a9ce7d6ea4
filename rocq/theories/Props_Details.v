(** Further theorems about C52, C69, C72, C78 and C131. *)
From Verif Require Import Bytes Hex Base64 Json Types Crypto CryptoIO Verify Prog Gossiper Monitor Cert CertPool CTngExt Network Overlap System SpecDetails SpecClient SpecCodec Details
  Toy RefuteGossiper.
From Verif Require Gen Client.
Open Scope string_scope.

(* ---------------------------------------------------------------- *)
(** C52: an identity that does not end in a number gets the address of entity 0 of its kind (the error of Atoi is dropped). *)
Theorem C52_not_a_number t s p d k : Gen.last_n 5 s = Some p -> Gen.last_n 3 s = Some d -> Gen.kind_of s = Some k -> atoi d = None -> Gen.rekey t s = Some (Gen.ip_of t k 0 ++ p).
Proof. exact (rekey_nan t s p d k). Qed.
Print Assumptions C52_not_a_number.

Example C52_not_a_number_ex : Gen.last_n 5 "localhost:91ab" = Some ":91ab" /\ Gen.last_n 3 "localhost:91ab" = Some "1ab" /\ atoi "1ab" = None.
Proof. vm_compute. done. Qed.

(* ---------------------------------------------------------------- *)
(** C69: null elements of the lists of an update are read as empty objects, all others as they are. *)
Theorem C69_null_elements a b c d e f : update_unmarshal (with_nulls a b c d e f) = Some (mkupd (or_empty a) (or_empty b) (or_empty c) (or_empty d) e f).
Proof. exact (nulls_read a b c d e f). Qed.
Print Assumptions C69_null_elements.

(* ---------------------------------------------------------------- *)
(** C72: every client of a whole system starts without knowledge and waits for no lock. *)
Theorem C72_world_start {P : prims} x (S : sysconf P) a b d lt ct u s : w_clients (world_init x S a b d lt ct) !! u = Some s -> s = fresh_client.
Proof. exact (clients_fresh x S a b d lt ct u s). Qed.
Print Assumptions C72_world_start.

(* ---------------------------------------------------------------- *)
(** C78: the first [t] entities draw their threshold keys, and the keys of the others are shares computed from those [t] draws. *)
Theorem C78_drawn {P : prims} (K : keyio P) rsa_rand bls_rand ids t cs n c : entity_configs K rsa_rand bls_rand ids t = Some cs -> NoDup ids -> cs !! n = Some c ->
  (n < t -> cc_bls_sec c = bls_rand n) /\ (t <= n -> cc_bls_sec c = bls_share K (map bls_rand (seq 0 t)) (cc_self c)).
Proof. exact (drawn_keys K rsa_rand bls_rand ids t cs n c). Qed.
Print Assumptions C78_drawn.

(* ---------------------------------------------------------------- *)
(** C131: a gossiper that has cached an object which differs in one part of signature, signer, period, type and payload asks for the announced one (or two texts with the same SHA-256 are known). *)
Theorem C131_changed_asked {P : prims} (cB : gconf P) sB sender g o : g_type g = REV_INIT -> t_payload sB !! get_id g = Some o -> one_change o g ->
  run (notification_handler cB (mknote sender (g_period g) REV_INIT (g_p0 g) (obj_hash (P:=P) g))) sB =
    (add_trace sB [ToGossiper sender "/gossip/new_payload_request" (MNote (mknote (cc_self (gc_crypto cB)) (g_period g) REV_INIT (g_p0 g) (obj_hash (P:=P) g)))], [], Done tt) \/
  exists a b, a <> b /\ h_sha256 P a = h_sha256 P b.
Proof. exact (changed_asked cB sB sender g o). Qed.
Print Assumptions C131_changed_asked.

Example C131_changed_ex : let g p := mkobj "CTng" "8" REV_INIT "ca" [] "sig" "" "t" "RSA" "ca" "CRV" p in one_change (g "a") (g "b") /\ get_id (g "a") = get_id (g "b").
Proof. split; [|done]. by exists ["sig"; "ca"; "8"; REV_INIT; "ca"; "CRV"], [], "a", "b". Qed.
