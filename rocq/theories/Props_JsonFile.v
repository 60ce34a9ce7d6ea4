(** What is kept in JSON files: databases of clients, updates of monitors, configurations. *)
From Verif Require Import Bytes Json JsonFacts Types Crypto Verify Merkle CTngExt Toy Bitset Revocation Cert CryptoIO SpecCryptoIO RefuteIO Disk SpecDisk RefuteDisk Monitor Client SpecClient RefuteCA RefuteClient.
From Verif Require Import IndentFacts JsonPrefix JsonFile SpecJsonFile JsonFileFacts StoryFacts RefuteJsonFile.
Open Scope string_scope.

(** C135: a client that saved its databases, whatever it went through before and in whatever order the entries are written, is started again with the tree
    heads and revocation vectors it had, and the file of proofs holds the proofs it had ... *)
Theorem C135_client {P : prims} z (c : cconf P) o F s d ls lc lp : life z c o F s d -> distinct F ->
  lists (cl_sth s) ls -> lists (cl_crv s) lc -> lists (cl_pom s) lp ->
  may_write o d (f_sth F) -> may_write o d (f_crv F) -> may_write o d (f_pom F) ->
  let d' := final d (saving_all o d F ls lc lp) in
  exists s', client_start o d' F = Some s' /\ idle s' /\ cl_sth s' = cl_sth s /\ cl_crv s' = cl_crv s /\
    load_pom (read_byte o d' (f_pom F)) = cl_pom s.
Proof. exact (@saved_found P z c o F s d ls lc lp). Qed.
Print Assumptions C135_client.

(** ... and a JSON value written to a file is loaded from it. *)
Theorem C135_configuration o d p v : wf_json v -> may_write o d p ->
  load_configuration o (final d (writing o d p (write_data v))) p = Some v /\
  load_configuration o (final d (rewriting o d p (gen_write v))) p = Some v.
Proof. exact (λ W M, conj (configuration_read o d p v W M) (generated_read o d p v W M)). Qed.
Print Assumptions C135_configuration.

Example C135_ex : life toy_z toy_clc plain_os client_files (good_client 12) client_home /\ distinct client_files /\
  lists (cl_sth (good_client 12)) (map_to_list (cl_sth (good_client 12))) /\
  may_write plain_os client_home (f_sth client_files) /\ may_write plain_os client_home (f_crv client_files) /\
  may_write plain_os client_home (f_pom client_files) /\ check_certificate toy_clc (good_client 12) (good_cert 12) = Accept.
Proof.
  split; [apply good_life|]. split; [apply client_files_distinct|]. split; [apply lists_self|].
  destruct client_writable as (M1 & M2 & M3). split; [exact M1|]. split; [exact M2|]. split; [exact M3|]. exact good_accepted.
Qed.

(** C136: a client interrupted while it saves its databases can be started again and has the data saved before or the new data - REFUTED: for every client that
    saved everything and saves it again, there is a moment at which an interruption makes every later start fail, and one after which it starts without any tree
    head, so that it accepts no certificate any more ... *)
Theorem C136_interrupted_refuted {P : prims} z (c : cconf P) o F s d ls lc lp : life z c o F s d -> distinct F ->
  lists (cl_sth s) ls -> lists (cl_crv s) lc -> lists (cl_pom s) lp ->
  may_write o d (f_sth F) -> may_write o d (f_crv F) -> may_write o d (f_pom F) -> (forall m, h_sha256 P m <> "") ->
  let d1 := final d (saving_all o d F ls lc lp) in
  (exists s1, client_start o d1 F = Some s1 /\ cl_sth s1 = cl_sth s /\ cl_crv s1 = cl_crv s) /\
  (exists d2, d2 ∈ saving_all o d1 F ls lc lp /\ client_start o d2 F = None) /\
  exists d2 s2, d2 ∈ saving_all o d1 F ls lc lp /\ client_start o d2 F = Some s2 /\ cl_sth s2 = ∅ /\ forall crt, check_certificate c s2 crt <> Accept.
Proof. exact (@saving_again P z c o F s d ls lc lp). Qed.
Print Assumptions C136_interrupted_refuted.

(** ... the fatal moments are all those between the opening of the file of revocation vectors and its completion ... *)
Theorem C136_fatal_moments o F s l d d' : lists (cl_crv s) l -> may_write o d (f_crv F) ->
  d' ∈ writing o d (f_crv F) (write_data (crv_json l)) -> d' <> d -> d' <> final d (writing o d (f_crv F) (write_data (crv_json l))) ->
  client_start o d' F = None /\ forall d'', d'' !! f_crv F = d' !! f_crv F -> client_start o d'' F = None.
Proof. exact (λ L M I N1 N2, let D := dead_while_saving o F s l d d' L M I N1 N2 in conj D (λ d'' E, stays_dead o F d' d'' D E)). Qed.
Print Assumptions C136_fatal_moments.

(** ... but the client never starts with other data than the old, the new or none: the tree heads are those saved before, none, or the new ones, and the revocation
    vectors are those saved before or the new ones. *)
Theorem C136_interrupted_partial {P : prims} z (c : cconf P) o F s d ls lc lp d' : life z c o F s d -> distinct F ->
  lists (cl_sth s) ls -> lists (cl_crv s) lc -> lists (cl_pom s) lp -> d' ∈ saving_all o d F ls lc lp ->
  client_start o d' F = None \/
  exists s', client_start o d' F = Some s' /\ idle s' /\ cl_pom s' = ∅ /\
    (cl_sth s' = load_sth (read_byte o d (f_sth F)) \/ cl_sth s' = ∅ \/ cl_sth s' = cl_sth s) /\
    (Some (cl_crv s') = load_crv (read_byte o d (f_crv F)) \/ cl_crv s' = cl_crv s).
Proof. exact (@interrupted P z c o F s d ls lc lp d'). Qed.
Print Assumptions C136_interrupted_partial.

Example C136_ex : life toy_z toy_clc plain_os client_files (good_client 12) client_home /\ distinct client_files /\
  (forall m, h_sha256 toy m <> "") /\ check_certificate toy_clc (good_client 12) (good_cert 12) = Accept.
Proof. split; [apply good_life|]. split; [apply client_files_distinct|]. split; [done|]. exact good_accepted. Qed.

(** C137: at any moment of saving an update, a request for it is answered as before, or fails, or gets the whole new update; requests for other periods are answered as before ... *)
Theorem C137_whole o d dir p u vs d' : tree d -> lacks "/" p -> d' ∈ saving_storage o d dir p u vs ->
  (answer_update o d' dir p = answer_update o d dir p \/ answer_update o d' dir p = None \/ answer_update o d' dir p = Some (served u)) /\
  forall q, lacks "/" q -> q <> p -> answer_update o d' dir q = answer_update o d dir q.
Proof. exact (λ T L H, conj (served_whole o d dir p u vs d' T L H) (λ q Lq N, other_periods o d dir p q u vs d' T Lq N H)). Qed.
Print Assumptions C137_whole.

(** ... and once it is saved, a request gets it. *)
Theorem C137_served o d dir p u vs : tree d -> update_writable o d dir p -> lacks "/" p ->
  answer_update o (final d (saving_storage o d dir p u vs)) dir p = Some (served u).
Proof. exact (@served_after o d dir p u vs). Qed.
Print Assumptions C137_served.

Example C137_ex : tree home /\ lacks "/" "7" /\ update_writable plain_os home ["data"; "m1"] "7" /\ answer_update plain_os home ["data"; "m1"] "7" = None.
Proof. split; [apply home_tree|]. split; [by vm_compute|]. split; [apply saved_home_writable|]. by vm_compute. Qed.

(** C138: a request for an update reads nothing but the updates of the monitor it is sent to - REFUTED: the string in the request becomes part of a path, and with
    the right string a monitor without any update answers with the update of another ... *)
Theorem C138_own_updates_refuted u : exists o d dir p, tree d /\ (forall q t, d !! (dir ++ q)%list <> Some (File t)) /\
  answer_update o d dir p = Some (served u).
Proof. exact (ex_intro _ _ (ex_intro _ _ (ex_intro _ _ (ex_intro _ _ (conj (two_monitors_tree _) (conj (proj2 (other_monitor u)) (proj1 (other_monitor u)))))))). Qed.
Print Assumptions C138_own_updates_refuted.

(** ... true if there is no slash in the request: the answer is determined by the file for that period in the directory of the monitor. *)
Theorem C138_own_updates_partial o d dir p : tree d -> lacks "/" p ->
  answer_update o d dir p =
  match read_byte o d (dir ++ [("Period_" ++ p)%string; "ClientUpdate.json"])%list with Some t => served <$> update_unmarshal t | None => None end.
Proof. exact (@own_file o d dir p). Qed.
Print Assumptions C138_own_updates_partial.

Example C138_ex t : tree (two_monitors t) /\ lacks "/" "8" /\ answer_update plain_os (two_monitors t) ["m"; "1"] "8" = None /\ ~ lacks "/" climbing.
Proof. split; [apply two_monitors_tree|]. split; [by vm_compute|]. split; [by vm_compute|]. vm_compute. intros H. by decompose [and] H. Qed.

(** C139: a configuration whose writing was interrupted is not loaded: after the interruption, loading gives the old configuration, an error, or the whole new one.
    True of the configurations of the parties ... *)
Theorem C139_configuration_partial o d p v d' : wf_json v -> structured v -> d' ∈ writing o d p (write_data v) ->
  load_configuration o d' p = load_configuration o d p \/ load_configuration o d' p = None \/ load_configuration o d' p = Some v.
Proof. exact (@configuration_interrupted o d p v d'). Qed.
Print Assumptions C139_configuration_partial.

(** ... also of those the generator writes, of which the old is gone as soon as writing starts ... *)
Theorem C139_generated_partial o d p v d' : wf_json v -> structured v -> d' ∈ rewriting o d p (gen_write v) ->
  d' !! p = Some (File (gen_write v)) \/ load_configuration o d' p = None.
Proof. exact (@generated_interrupted o d p v d'). Qed.
Print Assumptions C139_generated_partial.

(** ... and of complete crypto configurations, if the empty string is not a threshold key ... *)
Theorem C139_crypto_partial {P : prims} (K : keyio P) o d p (c : cconf P) d' :
  rsa_json_ok K -> ints_ok c -> bls_pubs_ok K c -> bls_sec_ok K c -> bls_sec_deser K "" = None ->
  d' ∈ writing o d p (write_cconf K c) ->
  load_cconf K o d' p = load_cconf K o d p \/ (exists c', load_cconf K o d' p = Some (c', false)) \/ load_cconf K o d' p = Some (c, true).
Proof. exact (@crypto_interrupted P K o d p c d'). Qed.
Print Assumptions C139_crypto_partial.

(** ... REFUTED for those that hold only public keys: in every state between the start and the end of writing, such a configuration loads without an error, and has no key. *)
Theorem C139_verify_only_refuted {P : prims} (K : keyio P) o d p (c : cconf P) d' : rsa_json_ok K -> may_write o d p ->
  d' ∈ writing o d p (write_cconf K c) -> d' <> d -> d' <> final d (writing o d p (write_cconf K c)) ->
  exists v, load_verify_only K o d' p = Some (v, true) /\ cc_rsa_pubs v = ∅ /\ cc_bls_pubs v = ∅.
Proof. exact (@verify_only_interrupted P K o d p c d'). Qed.
Print Assumptions C139_verify_only_refuted.

Example C139_ex : length (writing plain_os home ["a.json"] (write_data (JArr []))) = 5 /\
  length (writing plain_os home ["data"; "m1"; "CRV.json"] (write_data (JArr []))) = 4 /\
  load_configuration plain_os home ["data"; "m1"; "CRV.json"] = Some (JObj []) /\
  ((λ d, load_configuration plain_os d ["data"; "m1"; "CRV.json"]) <$> writing plain_os home ["data"; "m1"; "CRV.json"] (write_data (JArr []))) =
  [Some (JObj []); None; None; Some (JArr [])].
Proof. exact some_moments. Qed.
Example C139_ex_crypto : rsa_json_ok toy_io /\ ints_ok (toy_cc "g1" 1) /\ bls_pubs_ok toy_io (toy_cc "g1" 1) /\ bls_sec_ok toy_io (toy_cc "g1" 1) /\
  bls_sec_deser toy_io "" = None /\ may_write plain_os client_home (f_crv client_files) /\
  <[f_crv client_files := File ""]> client_home ∈ writing plain_os client_home (f_crv client_files) (write_cconf toy_io (toy_cc "g1" 1)).
Proof.
  split_and!; [apply toy_rsa_json|apply toy_ints_ok|apply toy_pubs_ok|apply toy_sec_ok|apply toy_empty_sec|apply client_writable|].
  apply emptied, client_writable.
Qed.

(** C140: whatever updates a client handles with verification, however often it saves its databases, is interrupted while saving, and is started again: every root
    it has recorded is that of a verified tree head for that logger and period in one of those updates ... *)
Theorem C140_roots {P : prims} z (c : cconf P) o F l s d k r : story z c o F l s d -> distinct F -> (forall u, (false, u) ∉ l) -> cl_sth s !! k = Some r ->
  exists u g x, (true, u) ∈ l /\ g ∈ u_sths u /\ k = g_p0 g ++ "@" ++ g_period g /\ verify c g = Accept /\ head_of g = Some x /\ r = sth_root x.
Proof. exact (@root_learned P z c o F l s d k r). Qed.
Print Assumptions C140_roots.

(** ... every revocation vector is that of a verified revocation object of that CA in one of those updates ... *)
Theorem C140_vectors {P : prims} z (c : cconf P) o F l s d ca v : story z c o F l s d -> distinct F -> (forall u, (false, u) ∉ l) -> cl_crv s !! ca = Some v ->
  exists u g, (true, u) ∈ l /\ g ∈ u_revs u /\ g_p0 g = ca /\ v = snd (srh_and_dcrv z g) /\ verify c g = Accept /\
    verify_srh c (fst (srh_and_dcrv z g)) v None (g_period g) = Accept.
Proof. exact (@vector_learned P z c o F l s d ca v). Qed.
Print Assumptions C140_vectors.

(** ... so a certificate is accepted only if a verified tree head in one of the updates covers it and a verified revocation object in one of them does not revoke it ... *)
Theorem C140_accepted {P : prims} z (c : cconf P) o F l s d crt : story z c o F l s d -> distinct F -> (forall u, (false, u) ∉ l) -> (forall m, h_sha256 P m <> "") ->
  check_certificate c s crt = Accept ->
  (exists i u g x p, i ∈ relied_on crt /\ (true, u) ∈ l /\ g ∈ u_sths u /\ verify c g = Accept /\ verify c (li_sth i) = Accept /\
    g_p0 g ++ "@" ++ g_period g = g_p0 (li_sth i) ++ "@" ++ g_period (li_sth i) /\ head_of g = Some x /\ poi_proof (li_poi i) = Some p /\
    verify_proof (h_sha256 P) (c_subject crt) (Some p) (hex_prefix (sth_root x)) = true) /\
  exists u g, (true, u) ∈ l /\ g ∈ u_revs u /\ g_p0 g = c_issuer_cn crt /\ verify c g = Accept /\ ~ revoked_in (snd (srh_and_dcrv z g)) crt.
Proof. exact (@accepted_learned P z c o F l s d crt). Qed.
Print Assumptions C140_accepted.

(** ... and a certificate that was revoked for the client before an interruption is not accepted after it. *)
Theorem C140_stays_revoked {P : prims} z (c : cconf P) o F l s d ls lc lp d' s' crt v : story z c o F l s d -> distinct F ->
  lists (cl_sth s) ls -> lists (cl_crv s) lc -> lists (cl_pom s) lp ->
  d' ∈ saving_all o d F ls lc lp -> client_start o d' F = Some s' -> (forall m, h_sha256 P m <> "") ->
  cl_crv s !! c_issuer_cn crt = Some v -> revoked_in v crt -> check_certificate c s' crt <> Accept.
Proof. exact (@revoked_stays P z c o F l s d ls lc lp d' s' crt v). Qed.
Print Assumptions C140_stays_revoked.

Example C140_ex : exists s d, story toy_z toy_clc plain_os client_files [(true, good_upd 12)] s d /\ check_certificate toy_clc s (good_cert 12) = Accept /\
  is_Some (d !! f_crv client_files) /\ (forall u, (false, u) ∉ [(true, good_upd 12)]).
Proof. exact restarted. Qed.
