(** C31-C36, C40, C57-C60: certificates, Merkle trees, loggers and the CTng extension. *)
From Verif Require Import Bytes Hex Json Types Crypto Verify Merkle Cert CertPool CTngExt Clock Logger Toy
  SpecCodec SpecVerify SpecCert SpecMerkle SpecLogger MerkleFacts CertFacts ExtFacts LoggerFacts RefuteLogger.
Open Scope string_scope.

(** C31: after any additions the pool holds the first copy of each
    certificate, in order, and both lookups agree with searching that list. *)
Theorem C31_pool_contents : forall l,
  get_certs (add_all l) = first_copies l /\ get_length (add_all l) = length (first_copies l) /\
  subjects (add_all l) = map c_subject (first_copies l) /\
  (forall c, c ∈ first_copies l -> c ∈ l) /\
  (forall c, c ∈ l -> exists d, d ∈ first_copies l /\ c_subject d = c_subject c /\ c_raw d = c_raw c) /\
  NoDup (map (λ c, (c_subject c, c_raw c)) (first_copies l)).
Proof. exact pool_contents. Qed.
Print Assumptions C31_pool_contents.

Theorem C31_lookup_by_key_id : forall l k,
  get_by_ski (add_all l) k = if is_empty k then None else find (λ c, String.eqb (c_ski c) k) (first_copies l).
Proof. exact pool_lookup. Qed.
Print Assumptions C31_lookup_by_key_id.

Theorem C31_parents : forall l c,
  potential_parents (add_all l) c =
  if negb (is_empty (c_aki c)) && existsb (λ d, String.eqb (c_ski d) (c_aki c)) (first_copies l)
  then positions (λ d, String.eqb (c_ski d) (c_aki c)) (first_copies l)
  else positions (λ d, String.eqb (c_subject d) (c_issuer c)) (first_copies l).
Proof. exact pool_parents. Qed.
Print Assumptions C31_parents.

(** The lookups stay right when certificates are replaced by updates that keep their names. *)
Theorem C31_after_updates : forall l s k, pool_run new_pool l s ->
  get_by_ski s k = if is_empty k then None else find (λ c, String.eqb (c_ski c) k) (p_certs s).
Proof. exact pool_run_lookup. Qed.
Print Assumptions C31_after_updates.

Example C31_ex : pool_run new_pool [PAdd (toy_cert "s1" "k1" 1); PAdd (toy_cert "s2" "k2" 2);
    PUpdate "k1" (set_exts (toy_cert "s1" "k1" 1) [mkext OID_CTNG false "x"])]
  (fold_left pool_step [PAdd (toy_cert "s1" "k1" 1); PAdd (toy_cert "s2" "k2" 2);
    PUpdate "k1" (set_exts (toy_cert "s1" "k1" 1) [mkext OID_CTNG false "x"])] new_pool).
Proof.
  cbn [fold_left]. eapply pr_cons; [exact I|]. eapply pr_cons; [exact I|]. eapply pr_cons; [|constructor].
  intros d H. vm_compute in H. injection H as <-. done.
Qed.

(** C32: within a period every submitted subject is covered by the published root, and with different subjects
    the published tree is the one over all submissions in order. *)
Theorem C32_kept_partial : forall (P : prims) (c : lconf P) up s l s' o t t1 t2 s'' ms,
  l_pool s = new_pool -> lives c up s l s' o -> EndPeriod ∉ l ->
  publish c up s' t t1 t2 = (s'', ms, true) ->
  exists g root, l_sth s'' !! pad2 (S (n_minute t)) = Some g /\ extract_root_hash g = Some root /\
    (forall x, Submit x ∈ l -> exists p, verify_proof (h_sha256 P) (c_subject x) (Some p) root = true) /\
    (NoDup (map c_subject (submitted l)) ->
     exists tr, new_tree (h_sha256 P) (map c_subject (submitted l)) = Some tr /\ mt_root tr = root).
Proof. exact @kept. Qed.
Print Assumptions C32_kept_partial.

Example C32_ex : let l := [Submit (toy_cert "s1" "k1" 1); Ask 7; Submit (toy_cert "s2" "k2" 2)] in
  exists s' o s'' ms, lives toy_logger all_up (logger_init 0 0) l s' o /\ EndPeriod ∉ l /\
  publish toy_logger all_up s' (at_min 7) (at_min 7) (at_min 7) = (s'', ms, true) /\ NoDup (map c_subject (submitted l)).
Proof.
  eexists _, _, _, _. split; [apply lrun_lives; vm_compute; reflexivity|]. split.
  - intros H. repeat (apply elem_of_cons in H as [H|H]; [discriminate H|]). by apply elem_of_nil in H.
  - split; [vm_compute; reflexivity|]. apply (bool_decide_unpack _). vm_compute. done.
Qed.

Theorem C32_same_subject_refuted : exists s o, lives toy_logger all_up (logger_init 0 0) two_same s o /\
  length (get_certs (l_pool s)) = 2 /\ get_by_ski (l_pool s) "k2" = None.
Proof. exact same_subject_dropped. Qed.
Print Assumptions C32_same_subject_refuted.

Theorem C32_late_refuted : exists s o, lives toy_logger all_up (logger_init 0 0) late s o /\ Submit late_cert ∈ late /\
  ~ logged toy_logger all_up (logger_init 0 0) late late_cert.
Proof. exact late_lost. Qed.
Print Assumptions C32_late_refuted.

(** C33 *)
Theorem C33_proofs_verify : forall h blocks t i b, new_tree h blocks = Some t -> blocks !! i = Some b ->
  exists p, mt_proofs t !! i = Some p /\ verify_proof h b (Some p) (mt_root t) = true.
Proof. exact proofs_verify. Qed.
Print Assumptions C33_proofs_verify.

Theorem C33_tree_exists : forall h blocks, 2 <= length blocks <-> is_Some (new_tree h blocks).
Proof. exact new_tree_some. Qed.
Print Assumptions C33_tree_exists.

(** The object built for a list of certificates contains the root all its proofs verify against. *)
Theorem C33_built : forall (P : prims) (c : lconf P) certs t period g root pois i x,
  build_tree c certs t period = Some (g, root, pois) -> certs !! i = Some x ->
  extract_root_hash g = Some root /\
  exists p, pois !! i = Some p /\ poi_ski p = c_ski x /\ poi_issuer p = c_issuer_cn x /\ poi_logger p = lc_signer c /\
    verify_proof (h_sha256 P) (c_subject x) (poi_proof p) root = true.
Proof. exact @built_proofs. Qed.
Print Assumptions C33_built.

Example C33_ex : exists t, new_tree (λ m, m) ["a"; "b"; "c"] = Some t /\ mt_root t = "abcc".
Proof. eexists. split; [vm_compute; reflexivity|done]. Qed.

(** C34: [k] is the length of hash values. *)
Theorem C34_sound_depth_partial : forall h k, (forall m, String.length (h m) = k) ->
  forall blocks t x q, new_tree h blocks = Some t -> verify_proof h x q (mt_root t) = true ->
  exists p, q = Some p /\ (length (pf_siblings p) = depth (length blocks) ->
  x ∈ blocks \/ collision_in h (proof_inputs h x p) (tree_inputs h blocks)).
Proof. exact sound_depth_some. Qed.
Print Assumptions C34_sound_depth_partial.

Theorem C34_sound_any_depth_partial : forall h k, (forall m, String.length (h m) = k) ->
  forall blocks t x q, new_tree h blocks = Some t -> verify_proof h x q (mt_root t) = true ->
  exists p, q = Some p /\ (x ∈ blocks \/ collision_in h (proof_inputs h x p) (tree_inputs h blocks) \/
  (exists a b, x = h a ++ h b) \/ exists y, y ∈ blocks /\ node_like h y).
Proof. exact sound_any_some. Qed.
Print Assumptions C34_sound_any_depth_partial.

(** A hash of fixed length under which a proof verifies. *)
Definition short_hash (m : string) : string := String (ascii_of_N (Z.to_N (toy_hash m) mod 256)) "".
Example C34_ex : (forall m, String.length (short_hash m) = 1) /\
  exists t p, new_tree short_hash ["a"; "b"; "c"] = Some t /\ length (pf_siblings p) = depth 3 /\
    verify_proof short_hash "c" (Some p) (mt_root t) = true.
Proof.
  split; [done|]. eexists _, (proof_at short_hash 2 (map short_hash ["a"; "b"; "c"]) 2).
  split; [reflexivity|]. split; [reflexivity|]. vm_compute. reflexivity.
Qed.

(** Only the subject is hashed. *)
Theorem C34_same_subject_refuted : forall h : string -> string, exists certs t x p,
  new_tree h (map c_subject certs) = Some t /\ verify_proof h (c_subject x) (Some p) (mt_root t) = true /\ x ∉ certs.
Proof. exact same_subject_accepted. Qed.
Print Assumptions C34_same_subject_refuted.

(** An inner node is accepted as a leaf. *)
Theorem C34_inner_node_refuted : forall h a b c d, exists t p,
  new_tree h [a; b; c; d] = Some t /\ verify_proof h (h a ++ h b) (Some p) (mt_root t) = true.
Proof. exact inner_node_accepted. Qed.
Print Assumptions C34_inner_node_refuted.

(** C35 *)
Theorem C35_normal_same_answer : forall (P : prims) (c : lconf P) up k l s o l' s' o' m,
  lives c up (logger_init 0 k) l s o -> lives c up s l' s' o' -> no_publish_for m l' ->
  exists g, snd (request_sth s m) = Answer g /\ snd (request_sth s' m) = Answer g.
Proof. exact @same_answer. Qed.
Print Assumptions C35_normal_same_answer.

Theorem C35_normal_honest : forall (P : prims) (c : lconf P) up k l s o m,
  lives c up (logger_init 0 k) l s o -> snd (request_sth s m) = shown s m Honest.
Proof. exact @reply_normal. Qed.
Print Assumptions C35_normal_honest.

Theorem C35_as_configured : forall (P : prims) (c : lconf P) up ty k l s o m b, k <> 0%Z ->
  lives c up (logger_init ty k) l s o ->
  configured ty k (active_periods l) (asked l + 1) b -> snd (request_sth s m) = shown s m b.
Proof. exact @reply_configured. Qed.
Print Assumptions C35_as_configured.

Theorem C35_configurations_total : forall ty k a n, k <> 0%Z -> (0 <= ty <= 6)%Z -> exists b, configured ty k a n b.
Proof. exact configured_total. Qed.
Print Assumptions C35_configurations_total.

(** A split-world logger shows its second tree to every second requester in its second active period. *)
Definition split_history : list levent :=
  [Submit (toy_cert "s1" "k1" 1); Submit (toy_cert "s2" "k2" 2); Ask 7; Publish (at_min 7) (at_min 7) (at_min 7); EndPeriod; Ask 8].
Example C35_ex : exists s o, lives toy_logger all_up (logger_init 1 2) split_history s o /\
  configured 1 2 (active_periods split_history) (asked split_history + 1) Equivocate /\
  shown s 8 Honest <> shown s 8 Equivocate.
Proof.
  eexists _, _. split; [apply lrun_lives; vm_compute; reflexivity|]. split.
  - apply cfg_split; [by left|exists 1%Z; reflexivity|reflexivity].
  - intros H. apply (f_equal (λ r, match r with Answer g => covered g | _ => "" end)) in H. vm_compute in H. done.
Qed.

(** C36 *)
Theorem C36_available_partial : forall (P : prims) (c : lconf P) up k l s o t t1 t2 s1 ms l' s' o',
  n_minute t <> 59 -> lives c up (logger_init 0 k) l s o ->
  publish c up s t t1 t2 = (s1, ms, true) -> lives c up s1 l' s' o' -> no_publish_for (next_minute (n_minute t)) l' ->
  exists g root tr, snd (request_sth s' (next_minute (n_minute t))) = Answer g /\ g_type g = STH_INIT /\
    g_period g = unpadded (next_minute (n_minute t)) /\
    g_signer g = lc_signer c /\ extract_root_hash g = Some root /\
    new_tree (h_sha256 P) (map c_subject (get_certs (l_pool s))) = Some tr /\ mt_root tr = root.
Proof. exact @available_next. Qed.
Print Assumptions C36_available_partial.

Theorem C36_published_verifies : forall (P : prims) (c : lconf P) (cc : cconf P) pk t root size period,
  cc_sign_scheme cc = "rsa" -> cc_rsa_pubs cc !! lc_signer c = Some pk -> lc_signer c <> "" -> plain_id (lc_signer c) = true ->
  (forall m, rsa_check pk m (rsa_sign (lc_key c) m) = true) ->
  verify cc (sth_object c t root size period) = Accept.
Proof. exact @sth_verifies. Qed.
Print Assumptions C36_published_verifies.

Example C36_ex : cc_sign_scheme (toy_cc "g1" 1) = "rsa" /\ cc_rsa_pubs (toy_cc "g1" 1) !! lc_signer toy_logger = Some (lc_key toy_logger) /\
  plain_id (lc_signer toy_logger) = true /\ (forall m, rsa_check (p:=toy) "k1" m (rsa_sign (p:=toy) "k1" m) = true).
Proof. split_and!; try (vm_compute; reflexivity). intros m. cbn. apply String.eqb_refl. Qed.

Theorem C36_minute_59_refuted : exists s o, lives toy_logger all_up (logger_init 0 0) at_59 s o /\
  snd (request_sth s (next_minute 59)) = Answer zero_obj.
Proof. exact missing_at_0. Qed.
Print Assumptions C36_minute_59_refuted.

Theorem C36_one_certificate_refuted : exists s o, lives toy_logger all_up (logger_init 0 0) [Submit (toy_cert "s1" "k1" 1)] s o /\
  snd (logger_step toy_logger all_up s (Publish (at_min 7) (at_min 7) (at_min 7))) = false.
Proof. exact one_cert_dies. Qed.
Print Assumptions C36_one_certificate_refuted.

(** For all pools: less than two certificates end the process. *)
Theorem C36_small_pool : forall (P : prims) (c : lconf P) up s t t1 t2, length (get_certs (l_pool s)) < 2 ->
  publish c up s t t1 t2 = (s, [], false).
Proof. exact @publish_small. Qed.
Print Assumptions C36_small_pool.

(** The tree head inside carries the minute of its creation, not the period of the object. *)
Theorem C36_inner_period : forall (P : prims) (c : lconf P) t root size period, exists b h,
  hex_decode (g_p1 (sth_object c t root size period)) = Some b /\
  sth_unmarshal b = Some h /\ sth_period h = pad2 (n_minute t) /\ sth_size h = Z.of_nat size.
Proof. exact @inner_period. Qed.
Print Assumptions C36_inner_period.

(** C40 *)
Theorem C40_roundtrip : forall x, ext_ok x -> decode_ctng (encode_ctng x) = x.
Proof. exact decode_encode. Qed.
Print Assumptions C40_roundtrip.

Theorem C40_known_logger : forall c i, listed i (x_infos (parse_ctng c)) -> update_ctng c i = c.
Proof. exact update_listed. Qed.
Print Assumptions C40_known_logger.

Theorem C40_new_logger : forall c i, carries c -> ~ listed i (x_infos (parse_ctng c)) ->
  ext_ok (mkctng (x_rid (parse_ctng c)) (x_infos (parse_ctng c) ++ [i])) ->
  parse_ctng (update_ctng c i) = mkctng (x_rid (parse_ctng c)) (x_infos (parse_ctng c) ++ [i]).
Proof. exact update_new. Qed.
Print Assumptions C40_new_logger.

Theorem C40_only_extensions : forall c i, exists l, update_ctng c i = set_exts c l.
Proof. exact update_frame. Qed.
Print Assumptions C40_only_extensions.

Theorem C40_many : forall l c, carries c -> ext_ok (mkctng (x_rid (parse_ctng c)) (x_infos (parse_ctng c) ++ l)) ->
  exists added, parse_ctng (fold_left update_ctng l c) = mkctng (x_rid (parse_ctng c)) (x_infos (parse_ctng c) ++ added) /\
    sublist added l /\ (forall i, i ∈ l -> listed i (x_infos (parse_ctng c) ++ added)) /\
    (NoDup (map (λ j, g_signer (li_sth j)) (x_infos (parse_ctng c))) ->
     NoDup (map (λ j, g_signer (li_sth j)) (x_infos (parse_ctng c) ++ added))).
Proof. exact update_all. Qed.
Print Assumptions C40_many.

Theorem C40_precert : forall c, ext_ok (mkctng (cert_rid c) []) ->
  parse_ctng (precert_of c) = mkctng (cert_rid c) [] /\ carries (precert_of c) /\
  c_subject (precert_of c) = c_subject c /\ c_ski (precert_of c) = c_ski c /\ c_raw (precert_of c) = "".
Proof. exact precert_fields. Qed.
Print Assumptions C40_precert.

Definition ex_info (signer : string) : loginfo :=
  mkloginfo (toy_init STH_INIT "8" "k1" signer "p" "") (mkpoi (Some (mkproof ["a"] 1)) "ski" "localhost:9000" signer).
Definition ex_cert : cert := set_exts (toy_cert "s1" "k1" 1) [mkext OID_CTNG false (encode_ctng (mkctng 5 []))].
Example C40_ex : carries ex_cert /\ ~ listed (ex_info "localhost:9100") (x_infos (parse_ctng ex_cert)) /\
  ext_ok (mkctng (x_rid (parse_ctng ex_cert)) (x_infos (parse_ctng ex_cert) ++ [ex_info "localhost:9100"; ex_info "localhost:9101"])) /\
  x_rid (parse_ctng ex_cert) = 5%Z.
Proof.
  assert (parse_ctng ex_cert = mkctng 5 []) as -> by (vm_compute; reflexivity). split_and!.
  - eexists. split; [apply elem_of_list_here|done].
  - intros (j & H & _). by apply elem_of_nil in H.
  - split; [vm_compute; split; discriminate|]. split.
    + repeat constructor; intros p [= <-]; done.
    + vm_compute. reflexivity.
  - done.
Qed.

(** C57: delivery of tree heads and proofs. *)
Theorem C57_delivered_partial : forall (P : prims) (c : lconf P) up ty k l s o t t1 t2,
  lives c up (logger_init ty k) l s o -> 2 <= length (get_certs (l_pool s)) ->
  ski_unique (get_certs (l_pool s)) -> (forall x, x ∈ get_certs (l_pool s) -> c_ski x <> "" -> up (c_issuer_cn x) = true) ->
  exists s' ms g root, publish c up s t t1 t2 = (s', ms, true) /\
    l_sth s' !! pad2 (S (n_minute t)) = Some g /\ extract_root_hash g = Some root /\
    (forall ca, ca ∈ lc_cas c -> SthTo ca g ∈ ms) /\
    forall x, x ∈ get_certs (l_pool s) -> c_ski x <> "" -> exists p, PoiTo (c_issuer_cn x) (mkpoi (Some p) (c_ski x) (c_issuer_cn x) (lc_signer c)) ∈ ms /\
      verify_proof (h_sha256 P) (c_subject x) (Some p) root = true.
Proof. exact @delivered. Qed.
Print Assumptions C57_delivered_partial.

Example C57_ex : exists s o, lives toy_logger all_up (logger_init 0 0) [Submit (toy_cert "s1" "k1" 1); Submit (toy_cert "s0" "" 3); Submit (toy_cert "s2" "k2" 2)] s o /\
  length (get_certs (l_pool s)) = 3 /\ ski_unique (get_certs (l_pool s)) /\
  forall x, x ∈ get_certs (l_pool s) -> c_ski x <> "" -> all_up (c_issuer_cn x) = true.
Proof.
  eexists _, _. split; [apply lrun_lives; vm_compute; reflexivity|]. split; [vm_compute; reflexivity|].
  split; [|done]. intros i j x y Hi Hj E N. 
  do 4 (destruct i as [|i]; [do 4 (destruct j as [|j]; [try done; cbn in Hi, Hj; injection Hi as <-; injection Hj as <-; done|]); done|]). done.
Qed.

Theorem C57_same_key_id_refuted : exists s o s' ms, lives toy_logger all_up (logger_init 0 0) same_ski s o /\
  publish toy_logger all_up s (at_min 7) (at_min 7) (at_min 7) = (s', ms, true) /\
  forall p, PoiTo "localhost:9000" (mkpoi p "k3" "localhost:9000" "localhost:9100") ∉ ms.
Proof. exact proofs_not_sent. Qed.
Print Assumptions C57_same_key_id_refuted.

Theorem C57_unreachable_refuted : exists s o, lives toy_logger (λ _, false) (logger_init 0 0) two_same s o /\
  snd (logger_step toy_logger (λ _, false) s (Publish (at_min 7) (at_min 7) (at_min 7))) = false.
Proof. exact unreachable_ca. Qed.
Print Assumptions C57_unreachable_refuted.

(** C58: the two trees of a period are always evidence against the logger: same identifier, different content. *)
Theorem C58_equivocation_evidence : forall (P : prims) (c : lconf P) up s t t1 t2 s' ms ok,
  publish c up s t t1 t2 = (s', ms, ok) -> 2 <= length (get_certs (l_pool s)) ->
  exists g f, l_sth s' !! pad2 (S (n_minute t)) = Some g /\ l_fake s' !! pad2 (S (n_minute t)) = Some f /\
    g_type f = g_type g /\ g_signer f = g_signer g /\ g_period f = g_period g /\ get_id f = get_id g /\ covered f <> covered g.
Proof. exact @fake_differs. Qed.
Print Assumptions C58_equivocation_evidence.

(** C59: the root together with the number of leaves determines the leaves. *)
Theorem C59_root_commits_partial : forall h k, (forall m, String.length (h m) = k) ->
  forall l1 l2 t1 t2, new_tree h l1 = Some t1 -> new_tree h l2 = Some t2 -> length l1 = length l2 ->
  mt_root t1 = mt_root t2 -> l1 = l2 \/ collision_in h (tree_inputs h l1) (tree_inputs h l2).
Proof. exact root_commits. Qed.
Print Assumptions C59_root_commits_partial.

Theorem C59_root_alone_refuted : forall h a b c, exists t1 t2,
  new_tree h [a; b; c] = Some t1 /\ new_tree h [a; b; c; c] = Some t2 /\ mt_root t1 = mt_root t2.
Proof. exact root_padding. Qed.
Print Assumptions C59_root_alone_refuted.
