(** C37-C39, C60-C63: certificate authorities and revocation. *)
From Verif Require Import Bytes Json Types Crypto Verify SpecCodec Merkle Cert CertPool CTngExt Clock SpecCert SpecLogger.
From Verif Require Import Bitset Revocation CA SpecCA CAFacts CARidFacts CAPoiFacts CAPoiPar RefuteCA Toy.
Open Scope string_scope.

(** C37: the certificates issued have the identifiers 1, 2, 3, ...; they keep them. *)
Theorem C37_issued_distinct_partial : forall (P : prims) x z (c : caconf P) cc, std_ok x -> forall ty k d1 d2 l,
  let s0 := ca_init x c ty k d1 d2 in
  (Z.of_nat (length (all_issued x z c cc s0 l)) <= int64_max)%Z ->
  NoDup (map cert_rid (all_issued x z c cc s0 l)) /\
  map cert_rid (all_issued x z c cc s0 l) = map (λ n, Z.of_nat n + 1)%Z (seq 0 (length (all_issued x z c cc s0 l))).
Proof. exact @rids_distinct. Qed.
Print Assumptions C37_issued_distinct_partial.

Theorem C37_stays : forall (P : prims) x z (c : caconf P) cc, std_ok x -> forall ty k d1 d2 l crt,
  let s0 := ca_init x c ty k d1 d2 in
  (Z.of_nat (length (all_issued x z c cc s0 l)) <= int64_max)%Z -> sizes_ok x z c cc s0 l ->
  crt ∈ get_certs (a_pool (ca_run x z c cc s0 l)) \/ crt ∈ sign_all x c (ca_run x z c cc s0 l) ->
  exists o, o ∈ all_issued x z c cc s0 l /\ same_subject crt o /\ cert_rid crt = cert_rid o.
Proof. exact @stays. Qed.
Print Assumptions C37_stays.

(** The CA's own certificate has the identifier of the first one issued. *)
Theorem C37_root_refuted : forall (P : prims) x z (c : caconf P) cc ty k d1 d2 d ds,
  std_ok x -> cac_signer c <> "Testing Dummy 1" ->
  exists f, f ∈ all_issued x z c cc (ca_init x c ty k d1 d2) [CIssue (d :: ds)] /\
    cert_rid f = cert_rid (a_root (ca_init x c ty k d1 d2)) /\
    c_subject_cn f <> c_subject_cn (a_root (ca_init x c ty k d1 d2)).
Proof. exact @root_collides. Qed.
Print Assumptions C37_root_refuted.

Example C37_ex : std_ok toy_x /\
  map (λ f, (c_subject_cn f, cert_rid f)) (sign_all toy_x toy_ca (toy_run (toy_ca0 0 0) (poi_history ++ [CPoi (toy_poi "localhost:9100")]))) =
    [("Testing Dummy 1", 1%Z); ("Testing Dummy 2", 2%Z)] /\
  map (λ f, map (λ i, g_signer (li_sth i)) (x_infos (parse_ctng f)))
      (sign_all toy_x toy_ca (toy_run (toy_ca0 0 0) (poi_history ++ [CPoi (toy_poi "localhost:9100")]))) = [["localhost:9100"]; []].
Proof. split; [apply toy_std|]. split; vm_compute; reflexivity. Qed.

Example C37_sizes_ex : sizes_ok toy_x toy_z toy_ca (toy_cc "localhost:9000" 0) (toy_ca0 0 0) (poi_history ++ [CPoi (toy_poi "localhost:9100")]).
Proof. exact small_sizes. Qed.

(** C38: without revocations after the first period end, as in the program. *)
Theorem C38_deltas_cover_partial : forall (P : prims) x z (c : caconf P) cc ty k d1 d2 l i,
  gzip_ok z -> indexes_ok l -> no_late_revocation l -> (exists p m, CPeriod p m ∈ l) ->
  revokes (v_cur (a_crv (ca_run x z c cc (ca_init x c ty k d1 d2) l))) i <->
  exists d, d ∈ deltas z (all_published x z c cc (ca_init x c ty k d1 d2) l) /\ revokes d i.
Proof. exact @deltas_cover. Qed.
Print Assumptions C38_deltas_cover_partial.

(** In general the deltas contain exactly what was revoked up to the first period end. *)
Theorem C38_deltas_exactly : forall (P : prims) x z (c : caconf P) cc ty k d1 d2 l1 p m l2 i,
  gzip_ok z -> no_period l1 -> indexes_ok (l1 ++ CPeriod p m :: l2) ->
  (exists d, d ∈ deltas z (all_published x z c cc (ca_init x c ty k d1 d2) (l1 ++ CPeriod p m :: l2)) /\ revokes d i) <->
  i ∈ p \/ CRevoke i ∈ l1.
Proof. exact @published_exactly. Qed.
Print Assumptions C38_deltas_exactly.

Theorem C38_vector_exactly : forall (P : prims) x z (c : caconf P) cc ty k d1 d2 l1 p m l2 i,
  gzip_ok z -> no_period l1 -> indexes_ok (l1 ++ CPeriod p m :: l2) ->
  revokes (v_cur (a_crv (ca_run x z c cc (ca_init x c ty k d1 d2) (l1 ++ CPeriod p m :: l2)))) i <->
  i ∈ p \/ CRevoke i ∈ l1 \/ CRevoke i ∈ l2.
Proof. exact @vector_exactly. Qed.
Print Assumptions C38_vector_exactly.

(** A later revocation is in the vector and in no delta. *)
Theorem C38_late_refuted : forall (P : prims) x z (c : caconf P) cc ty k d1 d2 i, gzip_ok z -> index_ok i ->
  let s0 := ca_init x c ty k d1 d2 in
  revokes (v_cur (a_crv (ca_run x z c cc s0 (late_revocation i)))) i /\
  length (all_published x z c cc s0 (late_revocation i)) = 2 /\
  forall d, d ∈ deltas z (all_published x z c cc s0 (late_revocation i)) -> ~ revokes d i.
Proof. exact @late_missing. Qed.
Print Assumptions C38_late_refuted.

Definition early : list caevent := [CRevoke 4; CPeriod [2%N; 9%N] 7; CAsk 8; CPeriod [] 8].
Example C38_ex : gzip_ok toy_z /\ indexes_ok early /\ no_late_revocation early /\ no_period [CRevoke 4].
Proof. exact early_ok. Qed.

(** C39 *)
Theorem C39_srh_checks_partial : forall (P : prims) x z (c : caconf P) cc ty k d1 d2 l p m pk,
  gzip_ok z -> indexes_ok (l ++ [CPeriod p m]) -> no_late_revocation (l ++ [CPeriod p m]) ->
  plain_id (cac_self c) = true -> cc_rsa_pubs cc !! cac_self c = Some pk ->
  (forall t, rsa_check pk t (rsa_sign (cac_key c) t) = true) ->
  let s := ca_run x z c cc (ca_init x c ty k d1 d2) l in
  let old := applied (deltas z (all_published x z c cc (ca_init x c ty k d1 d2) l)) in
  let g := obj_at (a_rev (ca_step x z c cc s (CPeriod p m))) (unpadded (S m)) in
  verify_srh cc (fst (srh_and_dcrv z g)) (snd (srh_and_dcrv z g)) old (g_period g) = Accept.
Proof. exact @srh_checks. Qed.
Print Assumptions C39_srh_checks_partial.

Theorem C39_late_refuted : let s := toy_run (toy_ca0 0 0) [CPeriod [] 7; CRevoke 5] in
  let old := applied (deltas toy_z (all_published toy_x toy_z toy_ca (toy_cc "localhost:9000" 0) (toy_ca0 0 0) [CPeriod [] 7; CRevoke 5])) in
  let g := obj_at (a_rev (ca_end_period toy_z toy_ca s [] 8)) (unpadded 9) in
  verify_srh (toy_cc "localhost:9000" 0) (fst (srh_and_dcrv toy_z g)) (snd (srh_and_dcrv toy_z g)) old (g_period g) = Reject /\
  verify (toy_cc "localhost:9000" 0) g = Accept.
Proof. exact late_rejected. Qed.
Print Assumptions C39_late_refuted.

Example C39_ex : plain_id (cac_self toy_ca) = true /\
  cc_rsa_pubs (toy_cc "localhost:9000" 0) !! cac_self toy_ca = Some (cac_key toy_ca) /\
  (forall t, rsa_check (p:=toy) "k3" t (rsa_sign (p:=toy) "k3" t) = true).
Proof. split_and!; [vm_compute; reflexivity..|]. intros t. apply String.eqb_refl. Qed.

(** C60: proofs of inclusion handled one after the other. *)
Theorem C60_sequential_partial : forall (P : prims) x z (c : caconf P) cc ty n d1 d2 l ps k crt,
  let s := ca_run x z c cc (ca_init x c ty n d1 d2) l in
  let new := map (info_of s) (List.filter (λ p, String.eqb (poi_ski p) k) ps) in
  get_by_ski (a_pool s) k = Some crt ->
  ext_ok (mkctng (x_rid (parse_ctng crt)) (x_infos (parse_ctng crt) ++ new)) ->
  exists crt' added, get_by_ski (a_pool (ca_run x z c cc s (map CPoi ps))) k = Some crt' /\
    parse_ctng crt' = mkctng (x_rid (parse_ctng crt)) (x_infos (parse_ctng crt) ++ added) /\ sublist added new /\
    (forall p, p ∈ ps -> poi_ski p = k -> listed (info_of s p) (x_infos (parse_ctng crt'))) /\
    (NoDup (map (λ j, g_signer (li_sth j)) (x_infos (parse_ctng crt) ++ new)) -> added = new).
Proof. exact @pois_listed. Qed.
Print Assumptions C60_sequential_partial.

(** The tree head filed with a proof is that logger's own, and verified. *)
Theorem C60_heads_verified : forall (P : prims) x z (c : caconf P) cc ty n d1 d2 l k g,
  a_sths (ca_run x z c cc (ca_init x c ty n d1 d2) l) !! k = Some g -> g_signer g = k /\ verify cc g = Accept.
Proof. exact @init_sths. Qed.
Print Assumptions C60_heads_verified.

Example C60_ex : let s := toy_run (toy_ca0 0 0) poi_history in
  exists crt, get_by_ski (a_pool s) "#pub1" = Some crt /\ 
    NoDup (map (λ j, g_signer (li_sth j)) (x_infos (parse_ctng crt) ++ map (info_of s) [toy_poi "localhost:9100"; toy_poi "localhost:9101"])) /\
    ext_ok (mkctng (x_rid (parse_ctng crt)) (x_infos (parse_ctng crt) ++ map (info_of s) [toy_poi "localhost:9100"; toy_poi "localhost:9101"])).
Proof. exact poi_fresh. Qed.

(** Handlers that run at the same time for different certificates: each certificate gets its proof, the other certificates stay. *)
Theorem C60_concurrent_partial : forall (P : prims) x z (c : caconf P) cc ty n d1 d2 h (ps : gmap nat poi) l,
  let s := ca_run x z c cc (ca_init x c ty n d1 d2) h in
  let s' := fst (fold_left poi_step l (s, ∅)) in
  handlers ps l -> different ps ->
  (forall k p crt, PoiWrite k ∈ l -> ps !! k = Some p -> get_by_ski (a_pool s) (poi_ski p) = Some crt ->
    ext_ok (mkctng (x_rid (parse_ctng crt)) (x_infos (parse_ctng crt) ++ [info_of s p])) ->
    exists crt', get_by_ski (a_pool s') (poi_ski p) = Some crt' /\ same_subject crt' crt /\
      listed (info_of s p) (x_infos (parse_ctng crt')) /\
      (~ listed (info_of s p) (x_infos (parse_ctng crt)) ->
       parse_ctng crt' = mkctng (x_rid (parse_ctng crt)) (x_infos (parse_ctng crt) ++ [info_of s p]))) /\
  (forall key, (forall k p, PoiWrite k ∈ l -> ps !! k = Some p -> poi_ski p <> key) ->
    get_by_ski (a_pool s') key = get_by_ski (a_pool s) key).
Proof. exact @par_reachable. Qed.
Print Assumptions C60_concurrent_partial.

Example C60_concurrent_ex : handlers both_pois both_schedule /\ different both_pois.
Proof. exact both_handlers. Qed.
Example C60_concurrent_pool_ex : let s := toy_run (toy_ca0 0 0) poi_history in
  exists c1 c2, get_by_ski (a_pool s) (poi_ski (toy_poi "localhost:9100")) = Some c1 /\ get_by_ski (a_pool s) (poi_ski toy_poi2) = Some c2 /\ c_pub c1 <> c_pub c2 /\
    ext_ok (mkctng (x_rid (parse_ctng c1)) (x_infos (parse_ctng c1) ++ [info_of s (toy_poi "localhost:9100")])) /\
    ext_ok (mkctng (x_rid (parse_ctng c2)) (x_infos (parse_ctng c2) ++ [info_of s toy_poi2])).
Proof. exact both_fresh. Qed.

(** Two handlers at once: the first logger's proof is lost. *)
Theorem C60_concurrent_refuted : let s := toy_run (toy_ca0 0 0) poi_history in
  exists crt, get_by_ski (a_pool (fst (fold_left poi_step lost_schedule (s, ∅)))) "#pub1" = Some crt /\
    map (λ i, g_signer (li_sth i)) (x_infos (parse_ctng crt)) = ["localhost:9101"].
Proof. exact poi_lost. Qed.
Print Assumptions C60_concurrent_refuted.

(** A proof that arrives before its tree head is kept with an empty head. *)
Theorem C60_early_refuted : let s := toy_run (toy_ca0 0 0) [CIssue [toy_draw 7 "pub1"]; CPoi (toy_poi "localhost:9100");
    CSth (toy_sth "localhost:9100" "k1"); CSth (toy_sth "localhost:9101" "k2")] in
  exists crt i, get_by_ski (a_pool s) "#pub1" = Some crt /\ x_infos (parse_ctng crt) = [i] /\ li_sth i = zero_obj.
Proof. exact poi_early. Qed.
Print Assumptions C60_early_refuted.

(** C61: the two objects of a period. *)
Theorem C61_evidence_iff_partial : forall (P : prims) x z (c : caconf P) cc ty k d1 d2 l p m,
  gzip_ok z -> indexes_ok (l ++ [CPeriod p m]) -> (Z.of_nat (length l) < 18446744073709551614)%Z ->
  let s := ca_run x z c cc (ca_init x c ty k d1 d2) l in
  let real := obj_at (a_rev (ca_step x z c cc s (CPeriod p m))) (unpadded (S m)) in
  let fake := obj_at (a_fake (ca_step x z c cc s (CPeriod p m))) (unpadded (S m)) in
  (evidence real fake <-> ~ revokes (snd (srh_and_dcrv z real)) (Z.to_N (1 + a_online s))) /\
  (fake = real <-> revokes (snd (srh_and_dcrv z real)) (Z.to_N (1 + a_online s))) /\
  (forall i, revokes (snd (srh_and_dcrv z fake)) i <-> revokes (snd (srh_and_dcrv z real)) i \/ i = Z.to_N (1 + a_online s)).
Proof. exact @two_objects. Qed.
Print Assumptions C61_evidence_iff_partial.

Theorem C61_both_verify : forall (P : prims) x z (c : caconf P) cc ty k d1 d2 l p m pk, gzip_ok z ->
  cc_sign_scheme cc = "rsa" -> cc_rsa_pubs cc !! cac_self c = Some pk -> plain_id (cac_self c) = true -> cac_signer c <> "" ->
  (forall t, rsa_check pk t (rsa_sign (cac_key c) t) = true) ->
  let s := ca_step x z c cc (ca_run x z c cc (ca_init x c ty k d1 d2) l) (CPeriod p m) in
  verify cc (obj_at (a_rev s) (unpadded (S m))) = Accept /\ verify cc (obj_at (a_fake s) (unpadded (S m))) = Accept.
Proof. exact @objects_verify. Qed.
Print Assumptions C61_both_verify.

Theorem C61_same_object_refuted : forall (P : prims) x z (c : caconf P) (cc : cconf P) ty k d1 d2, gzip_ok z ->
  let s := ca_end_period z c (ca_init x c ty k d1 d2) [1%N] 7 in
  obj_at (a_fake s) (unpadded 8) = obj_at (a_rev s) (unpadded 8).
Proof. exact @not_evidence. Qed.
Print Assumptions C61_same_object_refuted.

(** C62 *)
Theorem C62_available_partial : forall (P : prims) x z (c : caconf P) cc k d1 d2 l p m l',
  m <> 59 -> gzip_ok z -> no_period_for (next_minute m) l' -> indexes_ok (l ++ [CPeriod p m]) ->
  let s := ca_run x z c cc (ca_init x c 0 k d1 d2) (l ++ CPeriod p m :: l') in
  exists g, snd (request_rev s (next_minute m)) = Answer g /\ g_type g = REV_INIT /\ g_signer g = cac_signer c /\
    g_period g = unpadded (next_minute m) /\
    all_published x z c cc (ca_init x c 0 k d1 d2) (l ++ [CPeriod p m]) =
      (all_published x z c cc (ca_init x c 0 k d1 d2) l ++ [g])%list.
Proof. exact @ca_available. Qed.
Print Assumptions C62_available_partial.

Theorem C62_minute_59_refuted : let s := toy_run (toy_ca0 0 0) [CPeriod [] 59] in
  snd (request_rev s (next_minute 59)) = Answer zero_obj.
Proof. exact no_revocation_at_0. Qed.
Print Assumptions C62_minute_59_refuted.

(** C63 *)
Theorem C63_as_configured : forall (P : prims) x z (c : caconf P) cc ty k d1 d2 l m b, k <> 0%Z ->
  configured ty k (ca_active l) (ca_asked l + 1) b ->
  snd (request_rev (ca_run x z c cc (ca_init x c ty k d1 d2) l) m) =
  shown_rev (ca_run x z c cc (ca_init x c ty k d1 d2) l) m b.
Proof. exact @ca_configured. Qed.
Print Assumptions C63_as_configured.

Example C63_ex : let l := [CAsk 6; CPeriod [3%N] 7; CAsk 8] in
  configured 1 2 (ca_active l) (ca_asked l + 1) Equivocate /\ configured 3 2 (ca_active l) (ca_asked l + 1) Refuse.
Proof.
  split; [apply cfg_split; [by left|exists 1%Z; reflexivity|reflexivity]|].
  apply cfg_some; [done|]. left. exists 1%Z. reflexivity.
Qed.
