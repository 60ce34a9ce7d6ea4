{
 "claims": [
  {
   "property": "C01",
   "status": "proved",
   "theorems": [
    "C01_verify_iff",
    "C01_other_fields_irrelevant",
    "C01_unknown_type_rejected",
    "C01_panic_only_on_missing_key"
   ],
   "note": "Equivalence with the acceptance rule of SpecVerify.v, irrelevance of all other fields, rejection of unknown types, and the only source of panics."
  },
  {
   "property": "C02",
   "status": "proved",
   "theorems": [
    "C02_honest_init_accepted",
    "C02_honest_fragment_accepted",
    "C02_honest_aggregate_accepted"
   ],
   "note": "For INIT, FRAG and FULL objects; the laws of the primitives (signing verifies, serialisation round-trips, aggregation correct and order independent) are hypotheses, met by the record toy."
  },
  {
   "property": "C03",
   "status": "partial",
   "theorems": [
    "C03_full_threshold_refuted",
    "C03_listed_signers_signed_partial",
    "C03_full_threshold_partial"
   ],
   "note": "REFUTED: Verify does not compare the number of identities with Threshold; one fragment re-encoded as an aggregate is accepted. Proved: every registered identity listed signed; the claim holds when the list has Threshold distinct registered identities."
  },
  {
   "property": "C04",
   "status": "partial",
   "theorems": [
    "C04_signed_by_entity_refuted",
    "C04_signed_by_somebody_partial",
    "C04_signed_by_entity_partial"
   ],
   "note": "REFUTED: the identity in the signature is not compared with payload 0. Proved: whoever is named in the signature signed; the claim holds if that identity equals payload 0."
  },
  {
   "property": "C05",
   "status": "partial",
   "theorems": [
    "C05_conflict_proof_refuted",
    "C05_one_signature_convicts_anyone",
    "C05_conflict_proof_partial"
   ],
   "note": "REFUTED: any single valid RSA signature, by anybody, convicts any entity. Proved: both signatures were made by the identities named in them."
  },
  {
   "property": "C06",
   "status": "partial",
   "theorems": [
    "C06_payload_determined_refuted",
    "C06_payload_determined_partial"
   ],
   "note": "REFUTED: fields are concatenated without separators. Proved for payloads with equal field lengths."
  },
  {
   "property": "C07",
   "status": "proved",
   "theorems": [
    "C07_id_iff",
    "C07_target_type",
    "C07_stages_apart",
    "C07_printed_id_refuted"
   ],
   "note": "Also: the printed form of an identifier is ambiguous (refuted)."
  },
  {
   "property": "C08",
   "status": "partial",
   "theorems": [
    "C08_blacklist_grows_sequential",
    "C08_blacklist_grows_interleaved_partial",
    "C08_blacklist_grows_refuted"
   ],
   "note": "REFUTED for a period change interleaved with a handler: WipeStorage rebuilds storage from a snapshot and loses an entry added meanwhile. Proved for all histories of whole requests, timers and period changes, and for all interleavings without the period change."
  },
  {
   "property": "C09",
   "status": "partial",
   "theorems": [
    "C09_blacklisted_object_ignored",
    "C09_blacklisted_timer_ignored",
    "C09_blacklisted_request_ignored_partial",
    "C09_blacklisted_payload_only_partial",
    "C09_blacklisted_request_ignored_refuted"
   ],
   "note": "REFUTED at the HTTP handler: an oversized REV_INIT is cached and a REV_FRAG is stored and relayed under the empty entity before the blacklist test. Proved for Handle_Gossip_object, for signing timers, and for every other request."
  },
  {
   "property": "C10",
   "status": "proved",
   "theorems": [
    "C10_wipe_keeps_proofs"
   ],
   "note": "For every state; the save/wipe task is run as one piece (see C08 for interleavings)."
  },
  {
   "property": "C11",
   "status": "proved",
   "theorems": [
    "C11_stored_objects_verified"
   ],
   "note": "For every interleaving of requests, timers, ticks and period changes."
  },
  {
   "property": "C12",
   "status": "partial",
   "theorems": [
    "C12_fragments_and_fulls_verified_refuted",
    "C12_monitor_gets_verified_partial",
    "C12_gossipers_get_verified_partial"
   ],
   "note": "REFUTED: fragments are counted unverified, and Handle_OBJ_FULL ignores the result of Store. Proved: every other object sent to the monitor or to gossipers was verified."
  },
  {
   "property": "C13",
   "status": "proved",
   "theorems": [
    "C13_buckets_bounded"
   ],
   "note": "For every interleaving."
  },
  {
   "property": "C14",
   "status": "proved",
   "theorems": [
    "C14_counts_in_order",
    "C14_crossing_seen_once",
    "C14_bucket_size",
    "C14_aggregate_size"
   ],
   "note": "For every interleaving; ghost events record the returned values."
  },
  {
   "property": "C15",
   "status": "proved",
   "theorems": [
    "C15_redelivery_ignored",
    "C15_redeliveries_ignored"
   ],
   "note": ""
  },
  {
   "property": "C16",
   "status": "partial",
   "theorems": [
    "C16_conflict_published_sequential",
    "C16_conflict_published_refuted"
   ],
   "note": "REFUTED when two handlers are interleaved: both pass the test before either stores. Proved, with the exact new state and messages, for all histories of whole requests."
  },
  {
   "property": "C17",
   "status": "partial",
   "theorems": [
    "C17_honest_not_blacklisted_partial",
    "C17_honest_not_blacklisted_refuted"
   ],
   "note": "REFUTED under interleaving when copies with an empty Signer field are delivered. Proved for all interleavings if delivered statements of the entity have a non-empty Signer."
  },
  {
   "property": "C18",
   "status": "proved",
   "theorems": [
    "C18_new_statement_relayed",
    "C18_new_conflict_relayed",
    "C18_rejected_not_relayed",
    "C18_accusation_not_relayed"
   ],
   "note": "For every reachable state, positive threshold. A new statement with empty Signer is treated as conflicting (see C17)."
  },
  {
   "property": "C19",
   "status": "proved",
   "theorems": [
    "C19_strip_restore",
    "C19_stripped_handled_alike",
    "C19_uncached_loses_entity"
   ],
   "note": ""
  },
  {
   "property": "C20",
   "status": "proved",
   "theorems": [
    "C20_signs_only_accepted",
    "C20_blacklisted_not_signed"
   ],
   "note": "For every interleaving; the blacklist is read once, when the timer fires."
  },
  {
   "property": "C21",
   "status": "partial",
   "theorems": [
    "C21_signs_once_refuted",
    "C21_signs_once_partial"
   ],
   "note": "REFUTED: statements of one entity that name different signers do not conflict, and both are signed. Proved for histories in which the Signer field is determined by the identifier."
  },
  {
   "property": "C22",
   "status": "proved",
   "theorems": [
    "C22_nesting_at_most_three",
    "C22_bound_never_hit"
   ],
   "note": "Recursion with fuel: fuel three gives the same result as any more, and running out of fuel is unreachable."
  },
  {
   "property": "C23",
   "status": "partial",
   "theorems": [
    "C23_no_panic_refuted",
    "C23_no_panic_wipe_refuted",
    "C23_no_panic_sequential_partial",
    "C23_no_panic_interleaved_partial"
   ],
   "note": "REFUTED: an RSA signature naming an unknown identity panics; a period change between two critical sections panics on valid objects. Proved: none of the two, no panic (whole requests with period changes; interleaved requests without)."
  },
  {
   "property": "C24",
   "status": "partial",
   "theorems": [
    "C24_full_period_refuted",
    "C24_full_period_partial"
   ],
   "note": "REFUTED at a period boundary: the period is read from the clock when aggregating. Proved when the clock still shows the fragments' period."
  },
  {
   "property": "C25",
   "status": "partial",
   "theorems": [
    "C25_handling_is_local",
    "C25_delivery_is_local_partial",
    "C25_cached_delivery_is_local_partial",
    "C25_delivery_is_local_refuted"
   ],
   "note": "REFUTED at the HTTP handler for a REV_FRAG without cached payload (filed under the empty entity). Proved for Handle_Gossip_object in full, and for all other deliveries."
  },
  {
   "property": "C26",
   "status": "partial",
   "theorems": [
    "C26_rsasig_roundtrip_partial",
    "C26_rsasig_string_injective",
    "C26_rsasig_roundtrip_refuted",
    "C26_identity_injection"
   ],
   "note": "REFUTED for identities with quotes (injection exhibited). Proved for identities without quotes, backslashes and control characters; injectivity holds for all."
  },
  {
   "property": "C27",
   "status": "proved",
   "theorems": [
    "C27_sigfrag_roundtrip",
    "C27_thrsig_roundtrip"
   ],
   "note": "Identities of a fragment without quotes, backslashes and control characters; any identities for aggregates."
  },
  {
   "property": "C28",
   "status": "proved",
   "theorems": [
    "C28_aggregate_fails_iff",
    "C28_aggregate_ids",
    "C28_aggregate_order"
   ],
   "note": "Order independence uses order independence of the BLS addition as hypothesis."
  },
  {
   "property": "C29",
   "status": "proved",
   "theorems": [
    "C29_object_roundtrip",
    "C29_object_stream",
    "C29_sth_roundtrip",
    "C29_notification_roundtrip",
    "C29_escape"
   ],
   "note": "The JSON model copies bytes above 0x7f verbatim, so the statement is about ASCII (and valid UTF-8) contents."
  },
  {
   "property": "C30",
   "status": "proved",
   "theorems": [
    "C30_base64_text",
    "C30_hex_text",
    "C30_hex",
    "C30_hex_canonical",
    "C30_base64",
    "C30_decimal"
   ],
   "note": ""
  },
  {
   "property": "C31",
   "status": "proved",
   "theorems": [
    "C31_pool_contents",
    "C31_lookup_by_key_id",
    "C31_parents",
    "C31_after_updates"
   ],
   "note": "For every sequence of additions: contents are the first copies in order (two certificates count as copies if subject and encoding agree, which for the encodings-free certificates of loggers and CAs means the same subject); both lookups equal a search of that list, and key lookups stay right through updates that keep names."
  },
  {
   "property": "C32",
   "status": "partial",
   "theorems": [
    "C32_kept_partial",
    "C32_same_subject_refuted",
    "C32_late_refuted"
   ],
   "note": "REFUTED twice: a second precertificate with the same subject is dropped (ParseTBSCertificate leaves Raw empty, so all encodings compare equal), and one arriving between building the tree and replacing the pool is in no tree. Proved: within a period every submitted subject verifies against the published root, and with different subjects the tree is over all submissions in order."
  },
  {
   "property": "C33",
   "status": "proved",
   "theorems": [
    "C33_proofs_verify",
    "C33_tree_exists",
    "C33_built"
   ],
   "note": "Any hash function, any number of leaves; also for the object and proofs the logger builds."
  },
  {
   "property": "C34",
   "status": "partial",
   "theorems": [
    "C34_sound_depth_partial",
    "C34_sound_any_depth_partial",
    "C34_same_subject_refuted",
    "C34_inner_node_refuted"
   ],
   "note": "REFUTED: only the subject is hashed, so another certificate with the same subject is accepted (for every hash function); and inner nodes are accepted as leaves. Proved: with the right proof length the subject is a leaf or a collision between the strings hashed in the check and in the tree is exhibited; with any length the only further exceptions are subjects or leaves that contain hash values."
  },
  {
   "property": "C35",
   "status": "proved",
   "theorems": [
    "C35_normal_same_answer",
    "C35_normal_honest",
    "C35_as_configured",
    "C35_configurations_total"
   ],
   "note": "Stability of a normal logger's answers, and for each mode the exact condition, over all histories from start-up."
  },
  {
   "property": "C36",
   "status": "partial",
   "theorems": [
    "C36_available_partial",
    "C36_published_verifies",
    "C36_minute_59_refuted",
    "C36_one_certificate_refuted",
    "C36_small_pool",
    "C36_inner_period"
   ],
   "note": "REFUTED: after minute 59 the head is stored under \"60\" and minute 0 has none; with less than two certificates the process dies. Proved otherwise: the head is available in the next minute, carries it (unpadded) and verifies. The inner tree head carries the minute of creation instead."
  },
  {
   "property": "C37",
   "status": "partial",
   "theorems": [
    "C37_issued_distinct_partial",
    "C37_stays",
    "C37_root_refuted"
   ],
   "note": "REFUTED: the CA's own certificate has identifier 1, as has the first certificate it issues. Proved: the certificates issued have exactly the identifiers 1..n, and every certificate in the pool or finally signed has subject, key and identifier of one issued."
  },
  {
   "property": "C38",
   "status": "partial",
   "theorems": [
    "C38_deltas_cover_partial",
    "C38_deltas_exactly",
    "C38_vector_exactly",
    "C38_late_refuted"
   ],
   "note": "REFUTED: after the first period end the \"previous\" vector is the same pointer as the current one, so later revocations are in no delta. Proved: the deltas contain exactly what was revoked up to the first period end, the vector everything; they agree if nothing is revoked later, as in the pinned program."
  },
  {
   "property": "C39",
   "status": "partial",
   "theorems": [
    "C39_srh_checks_partial",
    "C39_late_refuted"
   ],
   "note": "REFUTED: with a revocation after the first period end the check fails at a receiver that has applied everything. Proved if nothing is revoked later."
  },
  {
   "property": "C40",
   "status": "proved",
   "theorems": [
    "C40_roundtrip",
    "C40_known_logger",
    "C40_new_logger",
    "C40_only_extensions",
    "C40_many",
    "C40_precert"
   ],
   "note": "Over all extensions Go can represent (sizes below 2^31, int and uint32 fields)."
  },
  {
   "property": "C41",
   "status": "proved",
   "theorems": [
    "C41_filed",
    "C41_conflicts_kept",
    "C41_accusations_kept",
    "C41_gossip_stored"
   ],
   "note": "Every table, every history, including replies, timers and the interleaved steps of the period task."
  },
  {
   "property": "C42",
   "status": "partial",
   "theorems": [
    "C42_verified_refuted",
    "C42_verified_or_gossiped",
    "C42_verified_partial"
   ],
   "note": "REFUTED: an object delivered on the gossiper's URL is stored and published unverified. Proved: everything stored verified or was delivered there, so it holds if the gossiper delivers only verified objects."
  },
  {
   "property": "C43",
   "status": "partial",
   "theorems": [
    "C43_update_exactly_partial",
    "C43_statement_published_partial",
    "C43_proof_published_partial",
    "C43_proof_lost_refuted"
   ],
   "note": "REFUTED: a proof that arrives after the update of its period is never published, even when gossiped again. Proved for an uninterrupted end of period: exact contents, each once; statements and proofs that arrive in time are published."
  },
  {
   "property": "C44",
   "status": "partial",
   "theorems": [
    "C44_conflicts_ignored_refuted",
    "C44_published_anyway_refuted",
    "C44_queried_exactly_partial",
    "C44_not_queried_partial",
    "C44_withheld_partial"
   ],
   "note": "REFUTED: the lookup uses period 0, which no gossiper-made conflict proof has; such entities are still queried and published. Proved: exactly which stored proofs stop queries and publication."
  },
  {
   "property": "C45",
   "status": "partial",
   "theorems": [
    "C45_accused_anyway_refuted",
    "C45_not_accused_partial",
    "C45_logger_not_accused_partial"
   ],
   "note": "REFUTED for minutes 0-9 (padded against unpadded period). Proved for a statement whose period is the padded minute, and for loggers' own statements from minute 10 on."
  },
  {
   "property": "C46",
   "status": "partial",
   "theorems": [
    "C46_accept_iff_partial",
    "C46_reject_iff_partial",
    "C46_stranger_refuted",
    "C46_unknown_issuer_refuted"
   ],
   "note": "REFUTED: one tree head signed by an identity without a key, or an issuer without a vector, makes the call panic even though another logger vouches. Proved: exactly when the call accepts and exactly when it rejects (the hash never returns the empty string)."
  },
  {
   "property": "C47",
   "status": "partial",
   "theorems": [
    "C47_first_delta_partial",
    "C47_later_deltas_refuted",
    "C47_still_accepted_refuted",
    "C47_honest_delta_refuted"
   ],
   "note": "REFUTED: the vector of a CA is frozen by its first delta (proved for every history); an applied second delta is ignored, and the second delta of an honest CA is refused and locks the client. Proved: what the first delta revokes is rejected from then on, through restarts on saved files."
  },
  {
   "property": "C48",
   "status": "partial",
   "theorems": [
    "C48_final_refuted",
    "C48_half_applied_refuted",
    "C48_only_verified_partial"
   ],
   "note": "REFUTED: the part before the failing object stays applied, and a mutex stays locked, so that no later update is ever applied (proved for every refused update). Proved: what a refused update changes comes from verified objects, and no vector or conviction is lost."
  },
  {
   "property": "C49",
   "status": "partial",
   "theorems": [
    "C49_kept_partial",
    "C49_rejected_partial",
    "C49_listed_convicts_partial",
    "C49_restart_refuted",
    "C49_forgotten_refuted",
    "C49_renamed_refuted"
   ],
   "note": "REFUTED: a restart empties the conviction database, and the field that is looked up is not covered by the signature. Proved: kept through updates and saves, and certificates whose signer fields all name convicts are rejected."
  },
  {
   "property": "C50",
   "status": "partial",
   "theorems": [
    "C50_origin_partial",
    "C50_typed_partial",
    "C50_any_head_refuted",
    "C50_framed_refuted"
   ],
   "note": "REFUTED: the type of the object is not checked, so that any tree head of a logger listed as an accusation convicts it. Proved: every conviction stems from a verified listed object, of type ACC_FULL or CON_INIT if the updates list only those."
  },
  {
   "property": "C51",
   "status": "partial",
   "theorems": [
    "C51_distinct_partial",
    "C51_signers_partial",
    "C51_connected_partial",
    "C51_pairs_partial",
    "C51_serves",
    "C51_sizes",
    "C51_clash_refuted"
   ],
   "note": "REFUTED beyond a thousand entities of a kind: Port_Postfix returns the empty string, all further entities share one URL. Proved: distinct identities, connections and ownership up to a thousand of each kind; logger-to-CA lists and sizes without a bound."
  },
  {
   "property": "C52",
   "status": "partial",
   "theorems": [
    "C52_not_a_number",
    "C52_defined_partial",
    "C52_identities_partial",
    "C52_keys_partial",
    "C52_distinct_partial",
    "C52_lists_partial",
    "C52_connected_partial",
    "C52_pairs_partial",
    "C52_template",
    "C52_ca_loggers_refuted",
    "C52_logger_cas_refuted"
   ],
   "note": "REFUTED for the list of loggers of a CA (every logger gets the IP of the logger with the number of the CA) and the list of CAs of a logger (not mapped). Proved up to a thousand entities of each kind: identities, key tables, all other lists, connections and owners (owners only if monitor and gossiper share an IP, as in the template)."
  },
  {
   "property": "C53",
   "status": "proved",
   "theorems": [
    "C53_round_trip",
    "C53_verify_only_no_secrets",
    "C53_verify_only_hides",
    "C53_verify_only_verifies",
    "C53_basic"
   ],
   "note": "The laws of the key encodings (RSA keys survive JSON, BLS keys survive serialisation) are hypotheses; integer fields must fit a Go int."
  },
  {
   "property": "C54",
   "status": "partial",
   "theorems": [
    "C54_honest_network_converges_partial",
    "C54_quiescence_reached_partial",
    "C54_overlapping_handlers_refuted",
    "C54_overlapping_some_aggregate_partial",
    "C54_overlapping_no_repeats_partial"
   ],
   "note": "REFUTED: with overlapping handlers two copies of a fragment can fill the count at one gossiper, which then makes no fragment of its own, and two of three gossipers end without an aggregate (threshold 3). Proved in full, for all numbers of gossipers, sets of statements and orders of deliveries, timers and clock readings, with one handler at a time; with overlapping handlers, some gossiper gets an aggregate, and all do if no fragment is stored twice, or if the threshold is at most two (C111). Laws of BLS aggregation are hypotheses (met by toy)."
  },
  {
   "property": "C55",
   "status": "partial",
   "theorems": [
    "C55_accepted_once_refuted",
    "C55_accepted_once_partial"
   ],
   "note": "REFUTED: a statement with another Signer field displaces the first one, which is then accepted and relayed again. Proved for histories in which the Signer field is determined by the identifier."
  },
  {
   "property": "C56",
   "status": "partial",
   "theorems": [
    "C56_honest_fragments_aggregate_refuted",
    "C56_honest_fragments_aggregate_partial"
   ],
   "note": "REFUTED: junk fragments fill the bucket. Proved for a bucket that is empty and a current period without aggregate; laws of BLS aggregation are hypotheses (met by toy)."
  },
  {
   "property": "C57",
   "status": "partial",
   "theorems": [
    "C57_delivered_partial",
    "C57_same_key_id_refuted",
    "C57_unreachable_refuted"
   ],
   "note": "REFUTED for equal key identifiers (sending stops) and unreachable CAs (the process dies). Proved for every history if key identifiers in the pool are non-empty and distinct and the issuers reachable."
  },
  {
   "property": "C58",
   "status": "proved",
   "theorems": [
    "C58_equivocation_evidence"
   ],
   "note": "For every pool of at least two certificates."
  },
  {
   "property": "C59",
   "status": "partial",
   "theorems": [
    "C59_root_commits_partial",
    "C59_root_alone_refuted"
   ],
   "note": "REFUTED: repeating the last leaf of an odd list keeps the root. Proved for lists of the same length (the tree size is part of the signed head), with the collision exhibited among the strings hashed for the two trees."
  },
  {
   "property": "C60",
   "status": "partial",
   "theorems": [
    "C60_sequential_partial",
    "C60_heads_verified",
    "C60_concurrent_partial",
    "C60_concurrent_refuted",
    "C60_early_refuted"
   ],
   "note": "REFUTED for two handlers running at once (the update is read-modify-write without a lock) and for a proof arriving before its tree head. Proved for handlers running one after the other, for every history (C60_sequential_partial), and for any number of handlers running at once, in every interleaving, whose proofs are for different certificates (C60_concurrent_partial)."
  },
  {
   "property": "C61",
   "status": "partial",
   "theorems": [
    "C61_evidence_iff_partial",
    "C61_both_verify",
    "C61_same_object_refuted"
   ],
   "note": "REFUTED when the bit 1+OnlineDuration is already in the delta: then both objects are the same. Proved: they are evidence exactly otherwise; both verify."
  },
  {
   "property": "C62",
   "status": "partial",
   "theorems": [
    "C62_available_partial",
    "C62_minute_59_refuted"
   ],
   "note": "REFUTED at minute 59 (filed under \"60\"). Proved for every other minute and every history."
  },
  {
   "property": "C63",
   "status": "proved",
   "theorems": [
    "C63_as_configured"
   ],
   "note": "For all histories from start-up, all modes and non-zero intervals."
  },
  {
   "property": "C64",
   "status": "proved",
   "theorems": [
    "C64_accused_for_cause",
    "C64_at_most_once"
   ],
   "note": ""
  },
  {
   "property": "C65",
   "status": "proved",
   "theorems": [
    "C65_accusation_verifies"
   ],
   "note": "For identities without reserved characters (plain_id), as configured."
  },
  {
   "property": "C66",
   "status": "proved",
   "theorems": [
    "C66_forwarded",
    "C66_good_answer_forwarded"
   ],
   "note": ""
  },
  {
   "property": "C67",
   "status": "partial",
   "theorems": [
    "C67_stranger_kills_refuted",
    "C67_survives_partial"
   ],
   "note": "REFUTED: a signature naming an identity without a key panics the process. Proved if all identities named in answers have keys."
  },
  {
   "property": "C68",
   "status": "partial",
   "theorems": [
    "C68_first_delta_kept_refuted",
    "C68_frozen_refuted",
    "C68_some_delta_partial"
   ],
   "note": "REFUTED: only the first delta is kept. Proved: the vector is the delta of some received revocation object of that CA, and never changes."
  },
  {
   "property": "C69",
   "status": "partial",
   "theorems": [
    "C69_null_elements",
    "C69_never_decodable_refuted",
    "C69_file_decodes_partial",
    "C69_twice_decoded_partial"
   ],
   "note": "REFUTED for every update: the body is base64 in a JSON string. Proved: the file decodes to the update, and taking off both wrappings gives the update of the period (C69_twice_decoded_partial)."
  },
  {
   "property": "C70",
   "status": "partial",
   "theorems": [
    "C70_logged_accepted_partial",
    "C70_one_digit_refuted",
    "C70_nine_refuted"
   ],
   "note": "REFUTED for minutes 0-9: the head in the certificate has an unpadded period, the threshold-signed head a padded one. Proved from minute 10 on."
  },
  {
   "property": "C71",
   "status": "partial",
   "theorems": [
    "C71_root_origin_partial",
    "C71_forged_refuted"
   ],
   "note": "REFUTED: any registered RSA key can sign a head for any logger. Proved: every recorded root stems from a verified object that names the logger and the period. Histories without restarts."
  },
  {
   "property": "C72",
   "status": "proved",
   "theorems": [
    "C72_save_restart",
    "C72_restart_works",
    "C72_first_start",
    "C72_world_start"
   ],
   "note": "The conviction file also reads back, although nothing reads it. White space of MarshalIndent and the order of keys: see C135."
  },
  {
   "property": "C73",
   "status": "partial",
   "theorems": [
    "C73_unrelated_partial",
    "C73_hour_later_refuted"
   ],
   "note": "REFUTED: the minute of the hour is the key, so that the head of an hour later replaces the root. Proved: updates with no head for its keys and no proof against its loggers do not change the verdict."
  },
  {
   "property": "C74",
   "status": "partial",
   "theorems": [
    "C74_update_survives_partial",
    "C74_check_survives_partial",
    "C74_killed_refuted"
   ],
   "note": "REFUTED: a signature of an unknown identity, or an unreadable revocation payload, panics. Proved when every identity named in the signatures has a key."
  },
  {
   "property": "C75",
   "status": "partial",
   "theorems": [
    "C75_no_roots_refuted",
    "C75_json_payload_partial"
   ],
   "note": "REFUTED for all published heads: their payload is hexadecimal, not JSON. Proved for payloads that are JSON objects."
  },
  {
   "property": "C76",
   "status": "proved",
   "theorems": [
    "C76_applied_verified"
   ],
   "note": ""
  },
  {
   "property": "C77",
   "status": "partial",
   "theorems": [
    "C77_full_reported_partial",
    "C77_verify_only_refuted",
    "C77_mistyped_refuted"
   ],
   "note": "REFUTED: the verify-only reader drops the error of reading the file and returns an empty configuration with a nil error; a field of the wrong type is dropped silently by every reader. Proved: the full reader reports every file that is not JSON."
  },
  {
   "property": "C78",
   "status": "proved",
   "theorems": [
    "C78_interoperate",
    "C78_parameters",
    "C78_threshold",
    "C78_drawn"
   ],
   "note": ""
  },
  {
   "property": "C79",
   "status": "proved",
   "theorems": [
    "C79_saved_files"
   ],
   "note": ""
  },
  {
   "property": "C80",
   "status": "partial",
   "theorems": [
    "C80_times_partial",
    "C80_mrd_refuted"
   ],
   "note": "REFUTED: the revocation delay is ignored, the merge delay is written twice. Proved: merge delay and number of certificates."
  },
  {
   "property": "C81",
   "status": "proved",
   "theorems": [
    "C81_interoperate",
    "C81_fragments",
    "C81_parameters"
   ],
   "note": "Correctness of RSA and BLS signatures and key encodings are hypotheses. Fragments need at least two gossipers: key generation refuses a threshold below two."
  },
  {
   "property": "C82",
   "status": "partial",
   "theorems": [
    "C82_two_loggers_partial",
    "C82_defined",
    "C82_one_logger_refuted"
   ],
   "note": "REFUTED: with an odd number of loggers the middle one is assigned twice. Proved: exactly when; and when generation panics."
  },
  {
   "property": "C83",
   "status": "proved",
   "theorems": [
    "C83_interoperate",
    "C83_fragments"
   ],
   "note": ""
  },
  {
   "property": "C84",
   "status": "partial",
   "theorems": [
    "C84_traffic_bound",
    "C84_traffic_total",
    "C84_overlapping_total_refuted"
   ],
   "note": "REFUTED in its second half: with overlapping handlers there can be fewer messages. The bound is proved for all interleavings (C87); the exact number with one handler at a time."
  },
  {
   "property": "C85",
   "status": "partial",
   "theorems": [
    "C85_small_revocation_refuted",
    "C85_large_revocation_refuted",
    "C85_revocations_converge_partial"
   ],
   "note": "REFUTED: in optimisation mode fragments of REV statements below the limit lose their payload at every receiver, and fragments of large ones lose it if they overtake the statement. Proved with the mode off and statements and fragments below the limit."
  },
  {
   "property": "C86",
   "status": "partial",
   "theorems": [
    "C86_one_signer_refuted",
    "C86_distinct_signers_partial"
   ],
   "note": "REFUTED: handlers of two copies of one fragment both pass the duplicate test and both store it. Proved for honest networks with one handler at a time."
  },
  {
   "property": "C87",
   "status": "proved",
   "theorems": [
    "C87_overlapping_traffic_bound"
   ],
   "note": "Every interleaving of the atomic steps of the handlers and signing timers of each gossiper, and every delivery order."
  },
  {
   "property": "C88",
   "status": "proved",
   "theorems": [
    "C88_overlapping_stored",
    "C88_overlapping_unharmed",
    "C88_overlapping_quiescence"
   ],
   "note": "Every interleaving of the atomic steps of the handlers and signing timers of each gossiper, and every delivery order."
  },
  {
   "property": "C89",
   "status": "partial",
   "theorems": [
    "C89_found_out_refuted",
    "C89_found_out_partial"
   ],
   "note": "REFUTED: anybody can hand in one of the two statements again under another signer name and with its signature text spelled differently; the copy overwrites the stored statement everywhere, and the conflicting one is then accepted. (With overlapping handlers detection fails at one gossiper already, C16.) Proved for one handler at a time when nobody hands in other versions under other names, accusations of the same entity, or versions too large to be sent directly; any other objects may be handed in."
  },
  {
   "property": "C90",
   "status": "partial",
   "theorems": [
    "C90_accused_refuted",
    "C90_accused_partial"
   ],
   "note": "REFUTED: fragments are stored unverified, so one made-up fragment of an accusation, handed in by anybody, ends in every aggregate and no aggregate verifies. Proved for one handler at a time when nobody hands in other objects made from accusations of the entity, conflict proofs about it, or second versions of its statements; objects about other entities are arbitrary."
  },
  {
   "property": "C91",
   "status": "partial",
   "theorems": [
    "C91_accusers_refuted",
    "C91_gossipers_refuted",
    "C91_accusers_partial"
   ],
   "note": "REFUTED: gossipers sign every accusation that carries a valid RSA signature of any known party, so one accusation handed to threshold gossipers is enough; and the duplicate test also compares a second signature that fragments do not use, so the same fragment under a changed second signature counts again. Proved under the conditions of C90 that threshold different gossipers were handed an accusation. (With overlapping handlers two copies of one fragment count twice, C86.)"
  },
  {
   "property": "C92",
   "status": "proved",
   "theorems": [
    "C92_only_the_guilty"
   ],
   "note": "Full. The gossipers' handlers are interleaved at every atomic step; the handlers of the other entities are single steps (System.v)."
  },
  {
   "property": "C93",
   "status": "partial",
   "theorems": [
    "C93_refuted",
    "C93_normal_logger_partial"
   ],
   "note": "REFUTED: what is published in minute 59 is filed under minute 60, and a query in minute 0 gets an empty object; all monitors accuse the logger, and all gossipers blacklist it. Proved for queries in minute n + 1 after a publication in minute n, in any system and whatever the other entities do."
  },
  {
   "property": "C94",
   "status": "partial",
   "theorems": [
    "C94_overlapping_refuted",
    "C94_overlapping_partial"
   ],
   "note": "REFUTED: a handler looks for another version before it stores its own, without holding a lock in between; if this happens at every gossiper at the same time, each overwrites the other version and nobody notices, although both versions were handed to them. Proved for all interleavings when no gossiper is itself handed two versions (different gossipers may be), with the conditions of C89 on the other objects."
  },
  {
   "property": "C95",
   "status": "proved",
   "theorems": [
    "C95_certificate",
    "C95_key",
    "C95_saved"
   ],
   "note": "PEM text, base64 and line breaks are modelled character by character; PKCS #8 encoding of keys is a parameter whose decoding inverts it. A read returns the whole file."
  },
  {
   "property": "C96",
   "status": "proved",
   "theorems": [
    "C96_never_corrupt"
   ],
   "note": "Crash points are after every character written (pem.Encode writes sequentially)."
  },
  {
   "property": "C97",
   "status": "partial",
   "theorems": [
    "C97_interrupted_refuted",
    "C97_failed_refuted",
    "C97_refused_partial"
   ],
   "note": "REFUTED: the file is emptied when it is opened, so an interruption loses the old certificate (C97_interrupted_refuted), and SaveKeyToDisk opens the file before it encodes the key, so that a key that cannot be encoded wipes out the old one (C97_failed_refuted). Proved: a certificate file that cannot be opened for writing stays as it was; see also C96."
  },
  {
   "property": "C98",
   "status": "partial",
   "theorems": [
    "C98_refuted",
    "C98_no_marker_partial"
   ],
   "note": "REFUTED: the type of the block is not looked at, so a private key is returned as a certificate. Proved: an error if there is no BEGIN marker. Malformed blocks are covered by C96 only for truncated text."
  },
  {
   "property": "C99",
   "status": "proved",
   "theorems": [
    "C99_bundle"
   ],
   "note": "Comments without dashes, types without dash, colon and newline, any text without a BEGIN marker after the last block; x509.ParseCertificate is a parameter. The pool is any made by adding certificates."
  },
  {
   "property": "C100",
   "status": "proved",
   "theorems": [
    "C100_only",
    "C100_all",
    "C100_succeeds",
    "C100_not_directory"
   ],
   "note": "Paths are lists of components; no symbolic links; nobody else changes the file system meanwhile."
  },
  {
   "property": "C101",
   "status": "proved",
   "theorems": [
    "C101_mass_revocation"
   ],
   "note": "The number of bits, int(float64(totalBits) * density), is a parameter: floating point is not modelled."
  },
  {
   "property": "C102",
   "status": "partial",
   "theorems": [
    "C102_refuted",
    "C102_ends_partial"
   ],
   "note": "REFUTED: with a ratio above 1 the loop never ends (C102_refuted, for every sequence of draws), and the CA's periodic task hangs. Proved: it ends as soon as enough different numbers have been drawn."
  },
  {
   "property": "C103",
   "status": "proved",
   "theorems": [
    "C103_found_out"
   ],
   "note": "For every fully connected system and every history of one period in which everything is delivered. C94 shows the race that occurs if one gossiper is given both versions; C90 and C91 show what accusations about the same entity do."
  },
  {
   "property": "C104",
   "status": "partial",
   "theorems": [
    "C104_gossiper_partial",
    "C104_monitor_partial",
    "C104_logger_partial",
    "C104_ca_partial",
    "C104_late_timers_refuted",
    "C104_other_mmd_refuted"
   ],
   "note": "REFUTED: each timer is set relative to the previous run, so if timers are late by any amount, a minute is skipped sooner or later (C104_late_timers_refuted, for every start); and with an MMD that is not a multiple of 60 processes do not start at a full minute. Proved with MMD 60 while the delays add up to less than a minute (less a second or two)."
  },
  {
   "property": "C105",
   "status": "partial",
   "theorems": [
    "C105_head_every_minute_partial",
    "C105_revocation_every_minute_partial",
    "C105_full_hour_refuted",
    "C105_ca_full_hour_refuted",
    "C105_never_at_full_hour",
    "C105_ca_never_at_full_hour"
   ],
   "note": "REFUTED in the first minute of every hour, for every history. Proved in all other minutes while the timers' delays add up to less than 19 (18) seconds; the time of day is carried along the history."
  },
  {
   "property": "C106",
   "status": "proved",
   "theorems": [
    "C106_asked_in_time",
    "C106_asked_too_early"
   ],
   "note": "MMD 60; the sum of waiting, delays and twice the difference of clocks is below a minute."
  },
  {
   "property": "C107",
   "status": "partial",
   "theorems": [
    "C107_within_limits",
    "C107_any_value",
    "C107_ends_partial",
    "C107_equal_limits_refuted",
    "C107_uniform"
   ],
   "note": "REFUTED: with equal (or swapped) limits the loop never ends, so nothing is ever sent. Proved otherwise: it ends with the first random number below 1. Random numbers are non-negative rationals."
  },
  {
   "property": "C108",
   "status": "partial",
   "theorems": [
    "C108_unchecked_refuted",
    "C108_check_partial",
    "C108_issued_pass_partial"
   ],
   "note": "REFUTED: the handler does not call the check, so a certificate signed by nobody is logged. Proved: the function meant for it, Verifyprecert, accepts exactly what it should, in particular everything an accepted CA issues."
  },
  {
   "property": "C109",
   "status": "partial",
   "theorems": [
    "C109_loaded_partial",
    "C109_error_refuted",
    "C109_bad_file"
   ],
   "note": "REFUTED: LoadOneStorage falls through to the error Mismatch on every path. Proved: its effect on the storages."
  },
  {
   "property": "C110",
   "status": "partial",
   "theorems": [
    "C110_empty_refuted",
    "C110_fetched_partial"
   ],
   "note": "REFUTED: it panics if the list is empty (the test is len == 0 && [0] != nil), and returns neither certificate nor error without TLS. Proved: it returns a certificate exactly if it is the first one presented."
  },
  {
   "property": "C111",
   "status": "proved",
   "theorems": [
    "C111_small_threshold_converges"
   ],
   "note": "Neighbour lists without repetitions, as generated. A threshold of three is refuted by C54_overlapping_handlers_refuted. Laws of BLS aggregation are hypotheses (met by toy)."
  },
  {
   "property": "C112",
   "status": "proved",
   "theorems": [
    "C112_delivered"
   ],
   "note": "Above two, the condition that no fragment is stored twice is needed, as shown by C54_overlapping_handlers_refuted. Assumed: the monitors' reports are not lost, nobody outside sends objects to monitors posing as a gossiper, clocks stay in the period, the client can use the statements (usable). Laws of BLS aggregation are hypotheses (met by toy)."
  },
  {
   "property": "C113",
   "status": "proved",
   "theorems": [
    "C113_certificate_accepted"
   ],
   "note": "Hypotheses as C112, and that sha256 never returns the empty string; no head in the certificate makes the verification panic."
  },
  {
   "property": "C114",
   "status": "proved",
   "theorems": [
    "C114_fragment_form",
    "C114_aggregate_form",
    "C114_aggregate_type",
    "C114_conflict_form",
    "C114_head_form",
    "C114_revocation_form",
    "C114_accusation_form"
   ],
   "note": ""
  },
  {
   "property": "C115",
   "status": "partial",
   "theorems": [
    "C115_overlapping_refuted",
    "C115_overlapping_partial"
   ],
   "note": "REFUTED: with threshold two and three gossipers, one of the two accusers has stored the other one's fragment twice, blacklists the entity itself and makes no fragment, and the third gossiper never learns. Proved for every interleaving in which the accusers have not stored a fragment twice; undisturbed as C90. Laws of BLS aggregation are hypotheses (met by toy)."
  },
  {
   "property": "C116",
   "status": "partial",
   "theorems": [
    "C116_overlapping_refuted",
    "C116_overlapping_partial"
   ],
   "note": "REFUTED: one accusation handed to one gossiper, and nothing else: its fragment reaches another gossiper over two paths, is stored twice and aggregated with itself. Proved for every interleaving: threshold fragments are stored, all by gossipers that were handed an accusation."
  },
  {
   "property": "C117",
   "status": "partial",
   "theorems": [
    "C117_recorded",
    "C117_history_partial",
    "C117_handlers",
    "C117_kept_refuted"
   ],
   "note": "REFUTED: an entry is replaced by the one of the same minute an hour later (C117_kept_refuted). C117_history_partial says exactly which entry there is after every history; C117_recorded what the end of a period does; C117_handlers that no handler changes an entry, for every interleaving. Traffic counters and Timerlist are not modelled."
  },
  {
   "property": "C118",
   "status": "proved",
   "theorems": [
    "C118_stops_only",
    "C118_stops_exactly",
    "C118_run"
   ],
   "note": "C118_stops_only for all histories, C118_stops_exactly as an equivalence if no key identifier is used twice (otherwise sending may end early without a stop). A body that is not a certificate ends the process too (log.Fatalf, see C32/C108) and is not an event here."
  },
  {
   "property": "C119",
   "status": "partial",
   "theorems": [
    "C119_stale_refuted",
    "C119_current_partial",
    "C119_statements_partial",
    "C119_finals_partial"
   ],
   "note": "REFUTED: the times are never reset, so a period without convergence is recorded with the time of an earlier one (C119_stale_refuted). What holds: times change only to the current second (C119_current_partial), and do so when the last statement or aggregate arrives (C119_statements_partial, C119_finals_partial)."
  },
  {
   "property": "C120",
   "status": "proved",
   "theorems": [
    "C120_accused_convicted",
    "C120_convicted_accused"
   ],
   "note": "The whole chain from the timers of the monitors to the clients. The proviso that no accuser stores a fragment twice cannot be dropped (C115_overlapping_refuted). Losses are excluded by messages_arrived and reports_arrived; which update contains the aggregate is fixed by g_period full = pad2 m."
  },
  {
   "property": "C121",
   "status": "partial",
   "theorems": [
    "C121_refuted",
    "C121_normal_ca_partial",
    "C121_unrecorded_accused"
   ],
   "note": "REFUTED: the object made in minute 59 is filed under minute 60, and a query in minute 0 gets an empty object; all monitors accuse the CA and all gossipers blacklist it. Proved for queries in minute n + 1 after a period that ended in minute n, in any system and whatever the other entities do, for all revocations. C121_unrecorded_accused shows that the condition on the records is needed: without it every such object sets off an accusation (see also C39_late_refuted). It assumes a hash without collisions and a key that accepts only what was signed."
  },
  {
   "property": "C122",
   "status": "partial",
   "theorems": [
    "C122_same_refuted",
    "C122_none_refuted",
    "C122_reverse_refuted",
    "C122_unique_partial",
    "C122_panics_iff",
    "C122_short",
    "C122_long",
    "C122_keygen",
    "C122_generated"
   ],
   "note": "REFUTED: a name and the same name after a zero byte have one identifier; names of 33 bytes or more (not beginning with zero) have none, and generating keys for them panics; the mapping back gives 32 bytes, so it is wrong for every other name. Proved: names not beginning with a zero byte have different identifiers; exactly which names have one; the outcome of the generation of keys for every list of names; all generated deployments up to 1000 gossipers are fine. What the BLS library does with hexadecimal text is taken from its documentation."
  },
  {
   "property": "C123",
   "status": "proved",
   "theorems": [
    "C123_silent_convicted",
    "C123_unanswered_accuses",
    "C123_query_ends",
    "C123_down_no_answer"
   ],
   "note": "The whole chain from a bad answer to the clients. The provisos on losses and on fragments stored twice are those of C120. C123_query_ends and C123_down_no_answer: a query never just vanishes, and that of an entity that does not run fails."
  },
  {
   "property": "C124",
   "status": "proved",
   "theorems": [
    "C124_first_object",
    "C124_revoked_rejected"
   ],
   "note": "Later objects of a CA do not have this effect: see C47. Restarts of a client: C47, C72."
  },
  {
   "property": "C125",
   "status": "partial",
   "theorems": [
    "C125_included_partial",
    "C125_two_cas_refuted"
   ],
   "note": "REFUTED: every CA names the subjects of its certificates \"Testing Dummy 1\", \"Testing Dummy 2\", ..., and a logger keeps one precertificate per subject, so of two CAs that issue in the same period the one whose precertificates arrive later gets no proof (C125_two_cas_refuted). Proved: in every history of the whole system in which the subject is new to the logger, keys differ, the issuers are running, the tree head arrives before the proof and neither the logger nor the CA changes the period in between, the signed certificate lists the published tree head with a valid proof (C125_included_partial, which also says that each message is really sent)."
  },
  {
   "property": "C126",
   "status": "partial",
   "theorems": [
    "C126_issued_accepted_partial"
   ],
   "note": "Proved under the conditions of C125 (a subject new to the logger, different keys, the tree head arriving before the proof, no change of period in between) and of C93 (a period without losses that comes to rest); without them it is refuted by C125_two_cas_refuted and by the refutations of C60 and C93. The theorem composes the two over one history of the whole system; a run of the small system meets all hypotheses (C126_ex)."
  },
  {
   "property": "C127",
   "status": "partial",
   "theorems": [
    "C127_handlers_partial",
    "C127_critical_sections_partial",
    "C127_period_end_refuted"
   ],
   "note": "REFUTED: the task at the end of a period ranges over the fragment maps without a lock and then overwrites the struct that contains the locks; so it can collide with a handler, end the process by making a handler unlock a lock that is no longer locked, and let two handlers into one critical section (C127_period_end_refuted). Proved: without that task, for any number of handlers and timers and every interleaving, no collision on any map, no misuse of locks, no deadlock, all goroutines can finish, and a critical section is not disturbed, which is what the atomic actions of Gossiper.v assume."
  },
  {
   "property": "C128",
   "status": "partial",
   "theorems": [
    "C128_no_deadlock_partial",
    "C128_receiving_partial",
    "C128_monitor_maps_refuted"
   ],
   "note": "REFUTED: the maps of new proofs and of revocation vectors are accessed without a lock or partly without, the checks for misbehaviour, the timers and the period task use no locks (C128_monitor_maps_refuted, five schedules). Proved: no misuse of locks, no deadlock, all goroutines can finish; receiving and storing objects never collides on the five maps the objects are kept in."
  },
  {
   "property": "C129",
   "status": "partial",
   "theorems": [
    "C129_no_deadlock_partial",
    "C129_requests_partial",
    "C129_heads_partial",
    "C129_ca_maps_refuted"
   ],
   "note": "REFUTED: receive_poi reads the map of tree heads without the lock receive_sth writes it under, and the period tasks use no locks for their maps (C129_ca_maps_refuted). Proved: no misuse of locks, no deadlock, all goroutines can finish; request handlers collide at most on the map of tree heads, and tree heads alone do not collide."
  },
  {
   "property": "C130",
   "status": "partial",
   "theorems": [
    "C130_no_deadlock_partial",
    "C130_requests_partial",
    "C130_precerts_partial",
    "C130_logger_maps_refuted"
   ],
   "note": "REFUTED: publishing writes the maps of tree heads without the lock requests hold (C130_logger_maps_refuted). Proved: no misuse of locks, no deadlock, all goroutines can finish; requests never collide with each other, and adding precertificates never collides with anything, also while the logger publishes (which starts a new pool; in the model it is the same map)."
  },
  {
   "property": "C131",
   "status": "partial",
   "theorems": [
    "C131_changed_asked",
    "C131_fetched_partial",
    "C131_known_not_asked",
    "C131_uncached_refuted",
    "C131_same_hash_refuted"
   ],
   "note": "REFUTED in two ways: an object that arrives in a request without a Content-Length above the threshold (a chunked body) is announced but not cached, so no neighbour gets it (C131_uncached_refuted, for every state); and the hash is taken of the concatenated fields, so a gossiper that holds a copy with the payload split at another place does not ask (C131_same_hash_refuted). Proved: if the size is announced, the object is cached and announced, every gossiper whose cache has no object with this hash asks, and the answer is the object as long as it is cached."
  },
  {
   "property": "C132",
   "status": "partial",
   "theorems": [
    "C132_as_if_atomic_partial",
    "C132_reachable_partial",
    "C132_blacklist_grows_partial",
    "C132_no_panic_partial",
    "C132_period_end_refuted"
   ],
   "note": "REFUTED: the task at the end of a period replaces maps and locks while a handler is inside a critical section; a second handler enters it, and a fragment that was counted is lost, which no run with uninterrupted critical sections does (C132_period_end_refuted). Proved: without that task, for every interleaving of single lock operations and map accesses, the state (with the trace of messages), the timers and the panics are those of a run of Gossiper.v in which critical sections are atomic; hence every theorem about reachable states or interleavings without the task carries over, three of which are spelled out."
  },
  {
   "property": "C133",
   "status": "proved",
   "theorems": [
    "C133_all_routed",
    "C133_gossiper",
    "C133_monitor",
    "C133_arrival",
    "C133_any_object",
    "C133_no_aggregate_path",
    "C133_own_path",
    "C133_slash"
   ],
   "note": "The behaviour of gorilla/mux with StrictSlash and of http.Client after a redirection is modelled in Routes.v from their documentation."
  },
  {
   "property": "C134",
   "status": "proved",
   "theorems": [
    "C134_network_as_if_atomic",
    "C134_system_as_if_atomic",
    "C134_stored",
    "C134_aggregates",
    "C134_unharmed",
    "C134_traffic",
    "C134_normal_logger"
   ],
   "note": "The task at the end of a period is excluded by the statement: with it the comparison fails (C132_period_end_refuted). C134_stored, C134_aggregates, C134_unharmed, C134_traffic and C134_normal_logger are consequences for networks and systems with interruptible critical sections; other theorems about Overlap.v and System.v carry over in the same way."
  },
  {
   "property": "C135",
   "status": "proved",
   "theorems": [
    "C135_client",
    "C135_configuration"
   ],
   "note": "The files are those of JsonFile.v (permissions are a parameter); no proper prefix matters here: the save is complete."
  },
  {
   "property": "C136",
   "status": "partial",
   "theorems": [
    "C136_interrupted_refuted",
    "C136_fatal_moments",
    "C136_interrupted_partial"
   ],
   "note": "REFUTED: WriteData empties the file before writing. An interruption between the opening and the completion of the file of revocation vectors makes every later start end in log.Fatal until somebody repairs the file, and one during the writing of the tree heads makes the client start without tree heads, so that it accepts no certificate (C136_interrupted_refuted, for every client and every save; C136_fatal_moments). Proved: the client never starts with a mixture within one database: the heads are the old, none or the new, the vectors the old or the new."
  },
  {
   "property": "C137",
   "status": "proved",
   "theorems": [
    "C137_whole",
    "C137_served"
   ],
   "note": "Periods contain no slash (those a monitor makes have none; what happens with a slash is C138). Creating directories and files is modelled step by step, writing character by character."
  },
  {
   "property": "C138",
   "status": "partial",
   "theorems": [
    "C138_own_updates_refuted",
    "C138_own_updates_partial"
   ],
   "note": "REFUTED: the string becomes part of a path, and ../ leaves the directory of the monitor: a monitor without any update serves the update of another (C138_own_updates_refuted). Proved: with no slash in the string, the answer depends only on the monitor's own file for that period."
  },
  {
   "property": "C139",
   "status": "partial",
   "theorems": [
    "C139_configuration_partial",
    "C139_generated_partial",
    "C139_crypto_partial",
    "C139_verify_only_refuted"
   ],
   "note": "REFUTED: a verify-only crypto configuration loads without an error and without any key in every state between the start and the end of writing (C139_verify_only_refuted). Proved for party configurations, generated configurations and complete crypto configurations (the latter if the empty string does not decode as a threshold key)."
  },
  {
   "property": "C140",
   "status": "proved",
   "theorems": [
    "C140_roots",
    "C140_vectors",
    "C140_accepted",
    "C140_stays_revoked"
   ],
   "note": "That the client may instead not start at all, or start without tree heads, is C136; that convictions are forgotten at every restart is C49."
  },
  {
   "property": "C141",
   "status": "proved",
   "theorems": [
    "C141_stored",
    "C141_kept",
    "C141_sent",
    "C141_accusations",
    "C141_asked",
    "C141_updates"
   ],
   "note": "In the model with a step for every access to a storage."
  },
  {
   "property": "C142",
   "status": "partial",
   "theorems": [
    "C142_withheld_partial",
    "C142_withheld_refuted"
   ],
   "note": "REFUTED: a final statement that arrives after the task has cleaned the storages is published (C142_withheld_refuted). Proved: with the proof held, no update begun later has a statement of the entity, if no final statement of the entity is received meanwhile or on its way into the storages, whatever else interleaves."
  },
  {
   "property": "C143",
   "status": "partial",
   "theorems": [
    "C143_replaced_refuted",
    "C143_vector_partial",
    "C143_origin"
   ],
   "note": "REFUTED: two timers of one CA can both find no vector and then both record theirs, so that any vector is replaced by any other (C143_replaced_refuted). Proved: it stays as it is if no timer that has already looked is about to record; and it always comes from a final statement of the CA that was received."
  },
  {
   "property": "C144",
   "status": "partial",
   "theorems": [
    "C144_in_store_refuted",
    "C144_missing_partial",
    "C144_convicted"
   ],
   "note": "REFUTED: the statement can arrive after the timer has looked for it, and the accusation is still sent (C144_in_store_refuted). Proved: it was missing when the timer looked; and with a conflict proof held no accusation is sent, unless the monitor has just looked for one."
  },
  {
   "property": "C145",
   "status": "proved",
   "theorems": [
    "C145_gossip",
    "C145_reply",
    "C145_panics",
    "C145_query",
    "C145_fire",
    "C145_task",
    "C145_task_ends",
    "C145_history",
    "C145_death"
   ],
   "note": "The two models of the monitor (Monitor.v, one step for each handler; FineMonitor.v, one step for each access to a storage) agree on runs without overlap; the task for every order of map entries. The update is equal up to the order within its lists, which the code does not fix."
  },
  {
   "property": "C146",
   "status": "proved",
   "theorems": [
    "C146_heads",
    "C146_proofs",
    "C146_answer",
    "C146_alone"
   ],
   "note": "In the model with a step for every access to the pool and the storages and for every post; several tasks may run at once."
  },
  {
   "property": "C147",
   "status": "partial",
   "theorems": [
    "C147_delivered_partial",
    "C147_survives_partial",
    "C147_submitted_partial",
    "C147_late_refuted",
    "C147_overlap_refuted"
   ],
   "note": "REFUTED: if a second task empties the pool while the first still sends proofs, the lookup of a certificate gives nil and the process dies (C147_overlap_refuted); and what is submitted while a task runs is thrown away when it ends (C147_late_refuted). Proved: with one task at a time, and one subject for each key identifier, every certificate in the pool at its start gets its proof, whatever is submitted or asked meanwhile, and the process survives; so a precertificate with a new subject that arrives while no task runs gets its proof from the next task (C147_submitted_partial)."
  },
  {
   "property": "C148",
   "status": "partial",
   "theorems": [
    "C148_same_answer_partial",
    "C148_two_heads_refuted"
   ],
   "note": "REFUTED: two tasks of one minute store different heads for the next minute, and two monitors get heads that convict the logger (C148_two_heads_refuted). Proved: the answer is the same while no task for that minute is about to store its head."
  },
  {
   "property": "C149",
   "status": "partial",
   "theorems": [
    "C149_unique_partial",
    "C149_posted",
    "C149_overlap_refuted"
   ],
   "note": "REFUTED: two period tasks that issue at the same time read the same counter, and two certificates with different keys get one identifier and one name, so revoking one revokes the other (C149_overlap_refuted). Proved: as long as a task starts only when no other one is still issuing, the identifiers are 1, 2, 3, ... whatever else goes on; and in every interleaving only signed certificates are posted, to configured loggers."
  },
  {
   "property": "C150",
   "status": "proved",
   "theorems": [
    "C150_answers",
    "C150_task",
    "C150_proof",
    "C150_request"
   ],
   "note": "In the model with a step for every access to the counter, the pool and the storages and for every post; several tasks, handlers and requests may run at once."
  },
  {
   "property": "C151",
   "status": "partial",
   "theorems": [
    "C151_same_answer_partial",
    "C151_two_objects_refuted",
    "C151_lost_refuted"
   ],
   "note": "REFUTED: the timer of the second part of a task starts when its certificates have been sent, so a slow task and a fast next one can end in the same minute. The second one overwrites the revocation object of the first by one with an empty delta: two monitors that ask before and after it get objects that convict the CA (C151_two_objects_refuted), and if nobody asked before, the revocations of the first are in no answer ever (C151_lost_refuted). Proved: the answer is the same while no task for that minute is about to store its object."
  },
  {
   "property": "C152",
   "status": "partial",
   "theorems": [
    "C152_sources_partial",
    "C152_lost_refuted",
    "C152_kept_partial",
    "C152_filed_partial"
   ],
   "note": "REFUTED: of two proofs for one certificate that are handled at once, one is lost, because the certificate is read before the lock is taken (C152_lost_refuted). Everything else holds in every interleaving: names, key and identifier are those of a signed certificate, entries are received proofs for the key with received, verified heads of the same logger or none, no logger twice (C152_sources_partial); and an entry stays unless the pool is replaced or a handler that read the certificate before it was made writes back (C152_kept_partial). A handler whose steps follow each other files its proof, unless the signer is already listed (C152_filed_partial). Assumed there: extensions below 2 GiB (encoding/asn1), 32-bit paths, fewer than 2^63-1 certificates."
  },
  {
   "property": "C153",
   "status": "proved",
   "theorems": [
    "C153_well_signed"
   ],
   "note": "The encoders of crypto/x509 are parameters (what the standard extensions are, how fields are encoded); assumed: no standard extension has the CTng object identifier."
  }
 ]
}