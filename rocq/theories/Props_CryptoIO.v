(** C53, C77-C79: crypto configurations in files. *)
From Verif Require Import Bytes Hex Base64 Json JsonFacts Crypto CTngExt Toy CryptoIO SpecCryptoIO CryptoIOFacts RefuteIO.
Open Scope string_scope.

(** C53: what is written reads back unchanged and without error. *)
Theorem C53_round_trip : forall (P : prims) (K : keyio P) (c : cconf P),
  rsa_json_ok K -> ints_ok c -> bls_pubs_ok K c -> bls_sec_ok K c ->
  read_cconf K (write_cconf K c) = (c, true).
Proof. exact @config_round_trip. Qed.
Print Assumptions C53_round_trip.

(** Verify-only configurations hold no secret key, whatever the file. *)
Theorem C53_verify_only_no_secrets : forall (P : prims) (K : keyio P) (file : string),
  cc_rsa_sec (fst (read_verify_only K file)) = rsa_sec0 K /\ cc_bls_sec (fst (read_verify_only K file)) = bls_sec0 K.
Proof. exact @verify_only_no_secrets. Qed.
Print Assumptions C53_verify_only_no_secrets.

(** Nor do they depend on it: configurations with other secrets read the same. *)
Theorem C53_verify_only_hides : forall (P : prims) (K : keyio P) (c d : cconf P),
  rsa_json_ok K -> ints_ok c -> bls_pubs_ok K c -> same_public c d ->
  read_verify_only K (write_cconf K c) = read_verify_only K (write_cconf K d).
Proof. exact @verify_only_hides. Qed.
Print Assumptions C53_verify_only_hides.

(** They verify and aggregate exactly like the full configuration. *)
Theorem C53_verify_only_verifies : forall (P : prims) (K : keyio P) (c : cconf P),
  rsa_json_ok K -> ints_ok c -> bls_pubs_ok K c ->
  let v := fst (read_verify_only K (write_cconf K c)) in
  (forall m sg, cc_verify v m sg = cc_verify c m sg) /\
  (forall m t, cc_thr_verify v m t = cc_thr_verify c m t) /\
  (forall m f, cc_frag_verify v m f = cc_frag_verify c m f) /\
  (forall m, cc_hash_msg v m = cc_hash_msg c m) /\
  (forall l, cc_thr_aggregate v l = cc_thr_aggregate c l).
Proof. exact @verify_only_verifies. Qed.
Print Assumptions C53_verify_only_verifies.

(** Basic configurations sign and verify with RSA like the full one and do nothing with
    thresholds. *)
Theorem C53_basic : forall (P : prims) (K : keyio P) (c : cconf P),
  rsa_json_ok K -> ints_ok c ->
  let b := read_basic K (write_cconf K c) in
  (forall m, cc_sign b m = cc_sign c m) /\ (forall m sg, cc_verify b m sg = cc_verify c m sg) /\
  (forall m, cc_hash_msg b m = cc_hash_msg c m) /\
  (forall m, cc_thr_sign b m = None) /\ (forall l, cc_thr_aggregate b l = None) /\
  (forall m t, cc_thr_verify b m t = Reject) /\ (forall m f, cc_frag_verify b m f = Reject) /\
  cc_bls_sec b = bls_sec0 K.
Proof. exact @basic_signs. Qed.
Print Assumptions C53_basic.

Example C53_ex : rsa_json_ok toy_io /\ ints_ok (toy_cc "g1" 1) /\ bls_pubs_ok toy_io (toy_cc "g1" 1) /\ bls_sec_ok toy_io (toy_cc "g1" 1) /\
  same_public (toy_cc "g1" 1) (toy_cc "g1" 5) /\ toy_cc "g1" 1 <> toy_cc "g1" 5.
Proof.
  split; [exact toy_rsa_json|]. split; [exact toy_ints_ok|]. split; [apply toy_pubs_ok|]. split; [apply toy_sec_ok|].
  split; [done|]. intros E. by apply (f_equal cc_bls_sec) in E.
Qed.

(** C77: a full configuration from a file that is not JSON is reported as an error. *)
Theorem C77_full_reported_partial : forall (P : prims) (K : keyio P) (file : string),
  parse_json file = None -> bls_sec_deser K "" = None -> snd (read_cconf K file) = false.
Proof. exact @damaged_full. Qed.
Print Assumptions C77_full_reported_partial.

Example C77_ex : parse_json truncated = None /\ bls_sec_deser toy_io "" = None.
Proof. split; [exact truncated_bad|exact toy_empty_sec]. Qed.

(** A verify-only one is not: it loads without keys, and no signature is
    accepted with it. *)
Theorem C77_verify_only_refuted : forall (P : prims) (K : keyio P) (file : string), parse_json file = None ->
  snd (read_verify_only K file) = true /\ cc_rsa_pubs (fst (read_verify_only K file)) = ∅ /\
  cc_bls_pubs (fst (read_verify_only K file)) = ∅.
Proof. exact @damaged_verify_only. Qed.
Print Assumptions C77_verify_only_refuted.

(** Nor is a value of the wrong type: here the threshold becomes 0. *)
Theorem C77_mistyped_refuted : snd (read_cconf toy_io mistyped) = true /\ cc_threshold (fst (read_cconf toy_io mistyped)) = 0 /\
  cc_self (fst (read_cconf toy_io mistyped)) = "g1".
Proof. exact mistyped_loads. Qed.
Print Assumptions C77_mistyped_refuted.

(** C78: what one generated entity signs, every other accepts as its signature. *)
Theorem C78_interoperate : forall (P : prims) (K : keyio P) rsa_rand bls_rand (ids : list string) (t : nat) cs c d,
  rsa_correct K -> bls_correct K ->
  entity_configs K rsa_rand bls_rand ids t = Some cs -> c ∈ cs -> d ∈ cs -> forall m,
  (exists sg, cc_sign c m = Some sg /\ rs_id sg = cc_self c /\ cc_verify d m sg = Accept) /\
  (exists f, cc_thr_sign c m = Some f /\ sf_id f = cc_self c /\ cc_frag_verify d m f = Accept).
Proof. exact @configs_interoperate. Qed.
Print Assumptions C78_interoperate.

(** There is one configuration per entity, with the parameters asked for; it hashes with SHA-256. *)
Theorem C78_parameters : forall (P : prims) (K : keyio P) rsa_rand bls_rand (ids : list string) (t : nat) cs,
  entity_configs K rsa_rand bls_rand ids t = Some cs ->
  map cc_self cs = ids /\ Forall (λ c, cc_threshold c = t /\ cc_n c = Z.of_nat (length ids) /\
     (forall m, cc_hash_msg c m = Some (h_sha256 P m)) /\
     cc_hash c = 4%Z /\ cc_sign_scheme c = "rsa" /\ cc_thr_scheme c = "bls") cs.
Proof. exact @configs_own. Qed.
Print Assumptions C78_parameters.

(** Generation succeeds exactly for thresholds of at least two. *)
Theorem C78_threshold : forall (P : prims) (K : keyio P) rsa_rand bls_rand (ids : list string) (t : nat),
  is_Some (entity_configs K rsa_rand bls_rand ids t) <-> 2 <= t.
Proof. exact @configs_threshold. Qed.
Print Assumptions C78_threshold.

Example C78_ex : rsa_correct toy_io /\ bls_correct toy_io /\
  exists cs c d, entity_configs toy_io toy_rsa_rand toy_bls_rand ["a"; "b"; "c"] 2 = Some cs /\
  c ∈ cs /\ d ∈ cs /\ cc_self c = "a" /\ cc_self d = "c" /\ length cs = 3.
Proof. split; [exact toy_rsa_correct|]. split; [exact toy_bls_correct|exact toy_generated]. Qed.

(** C79: every saved configuration is read back from the file named after its
    entity, whatever was in the directory and even if identities
    repeat. *)
Theorem C79_saved_files : forall (P : prims) (K : keyio P) rsa_rand bls_rand ids t cs dir (fs : gmap string string) c,
  rsa_json_ok K ->
  (forall k, bls_pub_deser K (bls_pub_ser K k) = Some k) -> (forall k, bls_sec_deser K (bls_sec_ser K k) = Some k) ->
  go_int (Z.of_nat t) -> go_int (Z.of_nat (length ids)) ->
  entity_configs K rsa_rand bls_rand ids t = Some cs -> c ∈ cs ->
  exists file, save_crypto_files K dir cs fs !! (dir ++ "/" ++ cc_self c ++ ".test.json") = Some file /\
    read_cconf K file = (c, true).
Proof. exact @saved_read. Qed.
Print Assumptions C79_saved_files.

Example C79_ex : rsa_json_ok toy_io /\ (forall k, bls_pub_deser toy_io (bls_pub_ser toy_io k) = Some k) /\
  (forall k, bls_sec_deser toy_io (bls_sec_ser toy_io k) = Some k) /\ go_int (Z.of_nat 2) /\ go_int (Z.of_nat 3).
Proof. split; [exact toy_rsa_json|]. split; [exact (λ k, toy_sec_ok (toy_cc "g1" k))|]. split; [exact (λ k, toy_sec_ok (toy_cc "g1" k))|]. by vm_compute. Qed.
