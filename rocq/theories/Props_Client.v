(** C46-C50, C70-C76: clients. *)
From Verif Require Import Bytes Hex Base64 Json Types Crypto Verify Merkle Cert CTngExt Bitset Revocation Monitor Clock Logger Toy
  SpecVerify SpecCodec RefuteLogger RefuteCA RefuteMonitor Client SpecClient ClientFacts ClientMore RefuteClient.
Open Scope string_scope.

(** C46: the verdict is the rule, except that the call panics when a tree head is
    signed by a stranger or nothing is known of the issuer. *)
Theorem C46_accept_iff_partial : forall (P : prims) (c : cconf P) s crt, (forall m, h_sha256 P m <> "") ->
  check_certificate c s crt = Accept <->
  (forall i, i ∈ relied_on crt -> harmless c s i) /\
  (exists i, i ∈ relied_on crt /\ vouches c s crt i) /\
  exists v, cl_crv s !! c_issuer_cn crt = Some v /\ ~ revoked_in v crt.
Proof. exact @verdict_accept. Qed.
Print Assumptions C46_accept_iff_partial.

Theorem C46_reject_iff_partial : forall (P : prims) (c : cconf P) s crt, (forall m, h_sha256 P m <> "") ->
  check_certificate c s crt = Reject <->
  (forall i, i ∈ relied_on crt -> harmless c s i) /\
  ((forall i, i ∈ relied_on crt -> ~ vouches c s crt i) \/ exists v, cl_crv s !! c_issuer_cn crt = Some v /\ revoked_in v crt).
Proof. exact @verdict_reject. Qed.
Print Assumptions C46_reject_iff_partial.

Example C46_ex : (forall m, h_sha256 toy m <> "") /\ check_certificate toy_clc (good_client 12) (good_cert 12) = Accept /\
  check_certificate toy_clc (after fresh_client first_upd) (good_cert 12) = Reject.
Proof. split; [done|]. split; [exact good_accepted|apply first_counts]. Qed.

Theorem C46_stranger_refuted : exists s crt i, vouches toy_clc s crt i /\ i ∈ relied_on crt /\ check_certificate toy_clc s crt = Panics.
Proof. exists (good_client 12), mixed_cert, (good_info 12). split; [|split]; apply stranger_kills. Qed.
Print Assumptions C46_stranger_refuted.

Theorem C46_unknown_issuer_refuted : forall (P : prims) (c : cconf P) s crt i, i ∈ relied_on crt -> vouches c s crt i ->
  (forall m, h_sha256 P m <> "") -> cl_crv s !! c_issuer_cn crt = None -> check_certificate c s crt = Panics.
Proof. exact @unknown_issuer_panics. Qed.
Print Assumptions C46_unknown_issuer_refuted.

Example C46_unknown_issuer_ex : exists s, result fresh_client (toy_upd [agreed (head_at two_certs 12) 12] [] [] []) = Applied /\
  s = after fresh_client (toy_upd [agreed (head_at two_certs 12) 12] [] [] []) /\
  check_certificate toy_clc s (good_cert 12) = Panics.
Proof. exact no_vector_kills. Qed.

(** C47: the first delta of a CA counts, through any later history in which
    every restart comes after a save. *)
Theorem C47_first_delta_partial : forall (P : prims) (z : gzip) (c : cconf P) l1 flag u l2 y os y0 os0 s1 a g b crt,
  lived z c l1 y0 os0 -> handle_update z c (cs_cl y0) flag u = (s1, Applied) ->
  u_revs u = (a ++ g :: b)%list -> cl_crv (cs_cl y0) !! g_p0 g = None -> (forall x, x ∈ a -> g_p0 x <> g_p0 g) ->
  lived z c (l1 ++ KUpdate flag u :: l2) y os -> durable l2 ->
  c_issuer_cn crt = g_p0 g -> revoked_in (snd (srh_and_dcrv z g)) crt ->
  check_certificate c (cs_cl y) crt <> Accept /\
  ((forall i, i ∈ relied_on crt -> harmless c (cs_cl y) i) -> check_certificate c (cs_cl y) crt = Reject).
Proof. exact @revoked_from_then_on. Qed.
Print Assumptions C47_first_delta_partial.

Example C47_ex : exists y os, lived toy_z toy_clc ([] ++ KUpdate true first_upd :: [KSave; KRestart; KUpdate true later_upd]) y os /\
  durable [KSave; KRestart; KUpdate true later_upd] /\
  handle_update toy_z toy_clc (cs_cl clsys_new) true first_upd = (after fresh_client first_upd, Applied) /\
  c_issuer_cn (good_cert 12) = g_p0 (toy_rev "12" revoked3 revoked3) /\
  revoked_in (snd (srh_and_dcrv toy_z (toy_rev "12" revoked3 revoked3))) (good_cert 12).
Proof. exact first_instance. Qed.

(** Later ones are ignored, whatever is in them. *)
Theorem C47_later_deltas_refuted : forall (P : prims) (z : gzip) (c : cconf P) y l y' os ca v,
  cl_run z c y l = Some (y', os) -> KRestart ∉ l -> cl_crv (cs_cl y) !! ca = Some v -> cl_crv (cs_cl y') !! ca = Some v.
Proof. exact @vector_frozen. Qed.
Print Assumptions C47_later_deltas_refuted.

Theorem C47_still_accepted_refuted : let s := after (good_client 12) second_upd in
  result (good_client 12) second_upd = Applied /\
  second_rev ∈ u_revs second_upd /\ g_p0 second_rev = c_issuer_cn (good_cert 12) /\
  revoked_in (snd (srh_and_dcrv toy_z second_rev)) (good_cert 12) /\
  check_certificate toy_clc s (good_cert 12) = Accept.
Proof. exact second_ignored. Qed.
Print Assumptions C47_still_accepted_refuted.

(** The second delta of an honest CA is refused, and after that every update waits for ever. *)
Theorem C47_honest_delta_refuted : let s := after (good_client 12) honest_second in
  result (good_client 12) honest_second = Refused /\
  verify toy_clc (toy_rev "13" revoked3 revoked3) = Accept /\
  check_certificate toy_clc s (good_cert 12) = Accept /\ result s (toy_upd [] [] [] []) = Stuck.
Proof. exact honest_refused. Qed.
Print Assumptions C47_honest_delta_refuted.

(** C48: after a refused update nothing is ever applied again until the program is restarted. *)
Theorem C48_final_refuted : forall (P : prims) (z : gzip) (c : cconf P) s flag u s1 f1 f2 f3 l y' os,
  handle_update z c s flag u = (s1, Refused) -> KRestart ∉ l ->
  cl_run z c (mkclsys s1 f1 f2 f3) l = Some (y', os) ->
  forall n flag' u', l !! n = Some (KUpdate flag' u') -> os !! n <> Some Applied.
Proof. exact @refusal_is_final. Qed.
Print Assumptions C48_final_refuted.

Theorem C48_half_applied_refuted : let s := after fresh_client half_upd in
  result fresh_client half_upd = Refused /\ cl_crv s <> cl_crv fresh_client /\ cl_sth s <> cl_sth fresh_client /\
  result s (good_upd 13) = Stuck.
Proof. exact half_applied. Qed.
Print Assumptions C48_half_applied_refuted.

(** What a refused update may change: it adds verified objects of the update, and takes no vector or conviction away. *)
Theorem C48_only_verified_partial : forall (P : prims) (z : gzip) (c : cconf P) s u s',
  handle_update z c s true u = (s', Refused) ->
  (forall ca v, cl_crv s !! ca = Some v -> cl_crv s' !! ca = Some v) /\
  (forall e, convicted s e -> convicted s' e) /\
  (forall ca d, cl_crv s' !! ca = Some d -> cl_crv s !! ca = Some d \/
     exists g, g ∈ u_revs u /\ g_p0 g = ca /\ verify c g = Accept /\ d = snd (srh_and_dcrv z g) /\
       verify_srh c (fst (srh_and_dcrv z g)) d None (g_period g) = Accept) /\
  (forall k r, cl_sth s' !! k = Some r -> cl_sth s !! k = Some r \/
     exists g x, g ∈ u_sths u /\ k = g_p0 g ++ "@" ++ g_period g /\ verify c g = Accept /\ head_of g = Some x /\ r = sth_root x) /\
  (forall e g, cl_pom s' !! e = Some g -> cl_pom s !! e = Some g \/ ((g ∈ u_accs u \/ g ∈ u_cons u) /\ g_p0 g = e /\ verify c g = Accept)).
Proof. exact @refused_effects. Qed.
Print Assumptions C48_only_verified_partial.

Example C48_ex : handle_update toy_z toy_clc fresh_client true half_upd = (after fresh_client half_upd, Refused).
Proof. unfold after. rewrite <- (proj1 half_applied). unfold result. apply surjective_pairing. Qed.

(** C49: kept through updates and saves, and a certificate all of whose signer fields name convicts is rejected. *)
Theorem C49_kept_partial : forall (P : prims) (z : gzip) (c : cconf P) y l y' os e,
  cl_run z c y l = Some (y', os) -> KRestart ∉ l -> convicted (cs_cl y) e -> convicted (cs_cl y') e.
Proof. exact @convicted_kept. Qed.
Print Assumptions C49_kept_partial.

Theorem C49_rejected_partial : forall (P : prims) (c : cconf P) s crt,
  (forall i, i ∈ relied_on crt -> convicted s (g_signer (li_sth i))) -> check_certificate c s crt = Reject.
Proof. exact @all_convicted. Qed.
Print Assumptions C49_rejected_partial.

Theorem C49_listed_convicts_partial : forall (P : prims) (z : gzip) (c : cconf P) s flag u s' g,
  handle_update z c s flag u = (s', Applied) -> g ∈ u_accs u \/ g ∈ u_cons u -> convicted s' (g_p0 g).
Proof. exact @proofs_convict. Qed.
Print Assumptions C49_listed_convicts_partial.

Example C49_ex : result (good_client 12) proof_upd = Applied /\ convicted severe "localhost:9100" /\
  check_certificate toy_clc severe (good_cert 12) = Reject.
Proof. exact severe_rejects. Qed.

Theorem C49_restart_refuted : forall (P : prims) (z : gzip) (c : cconf P) y y' o,
  cl_step z c y KRestart = Some (y', o) -> cl_pom (cs_cl y') = ∅.
Proof. exact @restart_forgets. Qed.
Print Assumptions C49_restart_refuted.

Theorem C49_forgotten_refuted : exists y os, lived toy_z toy_clc restart_history y os /\ os = [Applied; Applied; Applied; Applied] /\
  ~ convicted (cs_cl y) "localhost:9100" /\ check_certificate toy_clc (cs_cl y) (good_cert 12) = Accept.
Proof. exact forgotten. Qed.
Print Assumptions C49_forgotten_refuted.

Theorem C49_renamed_refuted : convicted severe "localhost:9100" /\
  Forall (λ i, g_p0 (li_sth i) = "localhost:9100") (relied_on renamed_cert) /\
  check_certificate toy_clc severe renamed_cert = Accept.
Proof. exact renamed_accepted. Qed.
Print Assumptions C49_renamed_refuted.

(** C50 *)
Theorem C50_origin_partial : forall (P : prims) (z : gzip) (c : cconf P) l y os, lived z c l y os -> careful l ->
  forall e g, cl_pom (cs_cl y) !! e = Some g ->
  exists u, KUpdate true u ∈ l /\ (g ∈ u_accs u \/ g ∈ u_cons u) /\ g_p0 g = e /\ verify c g = Accept.
Proof. exact @conviction_origin. Qed.
Print Assumptions C50_origin_partial.

Theorem C50_typed_partial : forall (P : prims) (z : gzip) (c : cconf P) l y os, lived z c l y os -> careful l ->
  (forall flag u, KUpdate flag u ∈ l -> proofs_typed u) ->
  forall e g, cl_pom (cs_cl y) !! e = Some g -> (g_type g = ACC_FULL \/ g_type g = CON_INIT) /\ g_p0 g = e /\ verify c g = Accept.
Proof. exact @typed_conviction_origin. Qed.
Print Assumptions C50_typed_partial.

Example C50_ex : exists y os, lived toy_z toy_clc [KUpdate true proof_upd] y os /\ careful [KUpdate true proof_upd] /\
  proofs_typed proof_upd /\ convicted (cs_cl y) "localhost:9100".
Proof. exact typed_instance. Qed.

(** Any tree head of any logger, listed as an accusation, convicts the logger. *)
Theorem C50_any_head_refuted : forall (P : prims) (z : gzip) (c : cconf P) (lc : lconf P) s pk t root size period, idle s ->
  cc_sign_scheme c = "rsa" -> cc_rsa_pubs c !! lc_signer lc = Some pk -> lc_signer lc <> "" -> plain_id (lc_signer lc) = true ->
  (forall m, rsa_check pk m (rsa_sign (lc_key lc) m) = true) ->
  exists s', handle_update z c s true (mkupd [] [] [] [sth_object lc t root size period] "" "") = (s', Applied) /\ convicted s' (lc_signer lc).
Proof. exact @head_convicts. Qed.
Print Assumptions C50_any_head_refuted.

Theorem C50_framed_refuted : result (good_client 12) frame_upd = Applied /\ g_type (head_at two_certs 12) = STH_INIT /\
  convicted (after (good_client 12) frame_upd) "localhost:9100" /\
  check_certificate toy_clc (after (good_client 12) frame_upd) (good_cert 12) = Reject.
Proof. exact framed. Qed.
Print Assumptions C50_framed_refuted.

(** C70: minutes of two digits.  [g], [root] and [pois] are what the logger makes of [certs]; [f] is the threshold-signed head. *)
Theorem C70_logged_accepted_partial : forall (P : prims) (z : gzip) (c : cconf P) (lc : lconf P) certs t period g root pois n poi d crt s s' flag u l1 f l2,
  (forall m, h_sha256 P m <> "") ->
  build_tree lc certs t period = Some (g, root, pois) -> certs !! n = Some d -> pois !! n = Some poi -> c_subject d = c_subject crt ->
  verify c g = Accept -> 10 <= period ->
  handle_update z c s flag u = (s', Applied) -> u_sths u = (l1 ++ f :: l2)%list ->
  g_p0 f = g_p0 g -> g_p1 f = g_p1 g -> g_period f = pad2 period ->
  (forall x, x ∈ l2 -> g_p0 x ++ "@" ++ g_period x <> g_p0 f ++ "@" ++ g_period f) ->
  ~ convicted s' (lc_signer lc) -> mkloginfo g poi ∈ relied_on crt -> (forall j, j ∈ relied_on crt -> harmless c s' j) ->
  (exists v, cl_crv s' !! c_issuer_cn crt = Some v /\ ~ revoked_in v crt) ->
  check_certificate c s' crt = Accept.
Proof. exact @logged_accepted. Qed.
Print Assumptions C70_logged_accepted_partial.

Example C70_ex : build_tree toy_logger two_certs (at_min 12) 12 = Some (head_at two_certs 12, root_at two_certs 12, pois_at two_certs 12) /\
  pois_at two_certs 12 !! 0 = Some (poi_at two_certs 12 0) /\ verify toy_clc (head_at two_certs 12) = Accept /\
  handle_update toy_z toy_clc fresh_client true (good_upd 12) = (good_client 12, Applied) /\
  mkloginfo (head_at two_certs 12) (poi_at two_certs 12 0) ∈ relied_on (good_cert 12) /\
  ~ convicted (good_client 12) (lc_signer toy_logger).
Proof. exact logged_instance. Qed.

Theorem C70_one_digit_refuted : forall (P : prims) (z : gzip) (c : cconf P) l y os crt, (forall m, h_sha256 P m <> "") ->
  lived z c l y os -> KRestart ∉ l ->
  (forall flag u g, KUpdate flag u ∈ l -> g ∈ u_sths u -> exists m, m < 60 /\ g_period g = pad2 m) ->
  (forall i, i ∈ relied_on crt -> exists n, n < 10 /\ g_period (li_sth i) = unpadded n) ->
  check_certificate c (cs_cl y) crt <> Accept.
Proof. exact @one_digit_never. Qed.
Print Assumptions C70_one_digit_refuted.

Theorem C70_nine_refuted : result fresh_client (good_upd 9) = Applied /\
  check_certificate toy_clc (good_client 9) (good_cert 9) = Reject.
Proof. exact nine_rejected. Qed.
Print Assumptions C70_nine_refuted.

(** C71 *)
Theorem C71_root_origin_partial : forall (P : prims) (z : gzip) (c : cconf P) l y os, lived z c l y os -> careful l -> KRestart ∉ l ->
  forall k r, cl_sth (cs_cl y) !! k = Some r ->
  exists u g x, KUpdate true u ∈ l /\ g ∈ u_sths u /\ k = g_p0 g ++ "@" ++ g_period g /\ verify c g = Accept /\ head_of g = Some x /\ r = sth_root x.
Proof. exact @root_origin. Qed.
Print Assumptions C71_root_origin_partial.

Example C71_ex : exists y os, lived toy_z toy_clc [KUpdate true (good_upd 12)] y os /\ careful [KUpdate true (good_upd 12)] /\
  is_Some (cl_sth (cs_cl y) !! "localhost:9100@12").
Proof. exact root_instance. Qed.

Theorem C71_forged_refuted : result fresh_client forged_upd = Applied /\
  cl_sth (after fresh_client forged_upd) !! "localhost:9100@12" = Some (hex_encode (root_at forged_certs 12)) /\
  g_s0 forged_head = toy_rsa_sig "k2" "localhost:9101" (g_p0 forged_head ++ g_p1 forged_head ++ g_p2 forged_head) /\
  check_certificate toy_clc (after fresh_client forged_upd) forged_cert = Accept.
Proof. exact forged_accepted. Qed.
Print Assumptions C71_forged_refuted.

(** C72 *)
Theorem C72_save_restart : forall (P : prims) (z : gzip) (c : cconf P) l y os, lived z c l y os ->
  exists y', lived z c (l ++ [KSave; KRestart]) y' (os ++ [Applied; Applied]) /\
    cl_sth (cs_cl y') = cl_sth (cs_cl y) /\ cl_crv (cs_cl y') = cl_crv (cs_cl y) /\ idle (cs_cl y') /\
    load_pom (cs_pom_file y') = cl_pom (cs_cl y).
Proof. exact @save_restart. Qed.
Print Assumptions C72_save_restart.

Theorem C72_restart_works : forall (P : prims) (z : gzip) (c : cconf P) l y os, lived z c l y os ->
  exists y', lived z c (l ++ [KRestart]) y' (os ++ [Applied]) /\ cl_pom (cs_cl y') = ∅ /\ idle (cs_cl y').
Proof. exact @restart_works. Qed.
Print Assumptions C72_restart_works.

(** A client started for the first time knows nothing and waits for no lock, whatever files there are. *)
Theorem C72_first_start : forall (P : prims) (z : gzip) (c : cconf P), (exists y, lived z c [] y [] /\ cs_cl y = fresh_client) /\
  (forall y os, lived z c [] y os -> cs_cl y = fresh_client /\ cs_sth_file y = None /\ cs_crv_file y = None /\ cs_pom_file y = None) /\
  forall f1 f2, client_init "NEW" f1 f2 = Some fresh_client.
Proof. exact @first_start. Qed.
Print Assumptions C72_first_start.

Example C72_ex : exists y os, lived toy_z toy_clc [KUpdate true (good_upd 12); KUpdate true half_upd] y os /\ ~ idle (cs_cl y) /\
  is_Some (cl_sth (cs_cl y) !! "localhost:9100@12").
Proof. exact saved_instance. Qed.

(** C73 *)
Theorem C73_unrelated_partial : forall (P : prims) (z : gzip) (c : cconf P) s flag u s' o crt,
  handle_update z c s flag u = (s', o) -> unrelated u crt -> is_Some (cl_crv s !! c_issuer_cn crt) ->
  check_certificate c s' crt = check_certificate c s crt.
Proof. exact @unrelated_same. Qed.
Print Assumptions C73_unrelated_partial.

Example C73_ex : unrelated (good_upd 13) (good_cert 12) /\ result (good_client 12) (good_upd 13) = Applied /\
  is_Some (cl_crv (good_client 12) !! c_issuer_cn (good_cert 12)).
Proof. exact unrelated_instance. Qed.

Theorem C73_hour_later_refuted : check_certificate toy_clc (good_client 12) (good_cert 12) = Accept /\
  result (good_client 12) later_upd = Applied /\
  check_certificate toy_clc (after (good_client 12) later_upd) (good_cert 12) = Reject.
Proof. exact hour_later. Qed.
Print Assumptions C73_hour_later_refuted.

(** C74 *)
Theorem C74_update_survives_partial : forall (P : prims) (z : gzip) (c : cconf P) s flag u,
  identities_ok z c u -> snd (handle_update z c s flag u) <> Died.
Proof. exact @update_survives. Qed.
Print Assumptions C74_update_survives_partial.

Theorem C74_check_survives_partial : forall (P : prims) (c : cconf P) s crt,
  (forall i, i ∈ relied_on crt -> harmless c s i) -> is_Some (cl_crv s !! c_issuer_cn crt) -> check_certificate c s crt <> Panics.
Proof. exact @check_survives. Qed.
Print Assumptions C74_check_survives_partial.

Example C74_ex : identities_ok toy_z toy_clc (good_upd 12).
Proof. exact good_identities. Qed.

Theorem C74_killed_refuted : result fresh_client stranger_upd = Died /\ result fresh_client empty_rev_upd = Died.
Proof. exact killed. Qed.
Print Assumptions C74_killed_refuted.

(** C75 *)
Theorem C75_no_roots_refuted : forall g r s, g_p1 g = hex_encode s -> get_root_hash (g :: r) = Some [].
Proof. exact no_roots. Qed.
Print Assumptions C75_no_roots_refuted.

Theorem C75_json_payload_partial : forall g r m x xs, parse_json (g_p1 g) = Some (JObj m) -> root_member m = Some x ->
  get_root_hash r = Some xs -> get_root_hash (g :: r) = Some (x :: xs).
Proof. exact json_roots. Qed.
Print Assumptions C75_json_payload_partial.

Example C75_ex : g_p1 (head_at two_certs 12) = hex_encode (sth_marshal (tree_head toy_logger (at_min 12) (root_at two_certs 12) 2)) /\
  get_root_hash [mkobj "" "" "" "" [] "" "" "" "" "" "{""RootHash"":""r""}" ""] = Some ["r"].
Proof. exact roots_instance. Qed.

(** C76 *)
Theorem C76_applied_verified : forall (P : prims) (z : gzip) (c : cconf P) s u s' g,
  handle_update z c s true u = (s', Applied) -> update_lists u g -> verify c g = Accept.
Proof. exact @applied_verified. Qed.
Print Assumptions C76_applied_verified.

Example C76_ex : result fresh_client (good_upd 12) = Applied.
Proof. exact good_applied. Qed.
