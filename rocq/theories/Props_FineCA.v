(** Properties of a CA whose tasks, handlers and requests interleave. *)
From Verif Require Import Bytes Json Types Crypto Verify SpecCodec Merkle Cert CertPool CTngExt Clock SpecCert Bitset Revocation CA SpecCA FineCA SpecFineCA FineCAFacts FineCAMore.
From Verif Require Import RefuteCA RefuteFineCA Toy.
Open Scope string_scope.

(* ---------------------------------------------------------------- *)
(** C149: as long as a period task starts only when no other one is still issuing, the certificates that are signed have the identifiers 1, 2, 3, ..., whatever else goes on ... *)
Theorem C149_unique_partial {P : prims} x z (c : caconf P) cc : std_ok x -> forall ty k d1 d2 l, let y0 := fc_init x c ty k d1 d2 in let o := snd (cfrun x z c cc y0 l) in
  one_issuer x z c cc y0 l -> (Z.of_nat (length (signed o)) <= int64_max)%Z ->
  NoDup (map cert_rid (signed o)) /\ map cert_rid (signed o) = map (λ n, Z.of_nat n + 1)%Z (seq 0 (length (signed o))).
Proof. exact (λ Hx ty k d1 d2 l, @rids_unique P x z c cc Hx ty k d1 d2 l). Qed.
Print Assumptions C149_unique_partial.

(** ... and in every interleaving, what is posted are signed certificates, and they are posted to the configured loggers. *)
Theorem C149_posted {P : prims} x z (c : caconf P) cc ty k d1 d2 l g crt : CMsg (PrecertTo g crt) ∈ snd (cfrun x z c cc (fc_init x c ty k d1 d2) l) ->
  g ∈ cac_loggers c /\ crt ∈ signed (snd (cfrun x z c cc (fc_init x c ty k d1 d2) l)).
Proof. exact (proj2 (@posted_run P x z c cc (fc_init x c ty k d1 d2) l eq_refl) g crt). Qed.
Print Assumptions C149_posted.

(** REFUTED for overlapping tasks: two certificates with different keys get one identifier and one name. *)
Theorem C149_overlap_refuted {P : prims} x z (c : caconf P) cc : std_ok x -> forall ty k d1 d2 a b, d_pub a <> d_pub b ->
  exists l f g, signed (snd (cfrun x z c cc (fc_init x c ty k d1 d2) l)) = [f; g] /\ cert_rid f = cert_rid g /\ c_subject f = c_subject g /\ c_pub f <> c_pub g.
Proof. exact (λ Hx ty k d1 d2 a b Hd, ex_intro _ (both a b) (@both_collide P x z c cc Hx ty k d1 d2 a b Hd)). Qed.
Print Assumptions C149_overlap_refuted.

Example C149_ex : one_issuer toy_x toy_z toy_ca (toy_cc "localhost:9000" 0) toy_fc0 quiet_ca /\
  let '(y, o) := cfrun toy_x toy_z toy_ca (toy_cc "localhost:9000" 0) toy_fc0 quiet_ca in
  map (λ f, (c_subject_cn f, cert_rid f)) (signed o) = [("Testing Dummy 1", 1%Z); ("Testing Dummy 2", 2%Z)] /\
  length (List.filter (λ e, match e with CMsg _ => true | _ => false end) o) = 4 /\
  List.filter (λ e, match e with CReply _ _ => true | _ => false end) o = [CReply 7 (Answer zero_obj)] /\
  map (λ f, map (λ i, g_signer (li_sth i)) (x_infos (parse_ctng f))) (get_certs (a_pool (fc_st y))) = [["localhost:9100"]; []].
Proof. split; [exact quiet_ca_one|vm_compute; done]. Qed.

(* ---------------------------------------------------------------- *)
(** C150: in every interleaving, an answer is the empty object, or the CA's own verifying revocation object for the minute of the answer; a normal CA's is signed over the vector at some moment, and its
    delta is either that vector or empty. *)
Theorem C150_answers {P : prims} x z (c : caconf P) cc : gzip_ok z -> forall ty k d1 d2 pk, cc_sign_scheme cc = "rsa" -> cc_rsa_pubs cc !! cac_self c = Some pk ->
  plain_id (cac_self c) = true -> cac_signer c <> "" -> (forall t, rsa_check pk t (rsa_sign (cac_key c) t) = true) ->
  forall l m g, positions_ok l -> CReply m (Answer g) ∈ snd (cfrun x z c cc (fc_init x c ty k d1 d2) l) ->
  g = zero_obj \/ own_object c cc m g /\
    (ty = 0%Z -> exists v d, was_vector x z c cc (fc_init x c ty k d1 d2) l v /\ (d = v \/ d = bs_new crv_size) /\ says z c m g v d).
Proof. exact (@answers P x z c cc). Qed.
Print Assumptions C150_answers.

(** Goroutines that meet nothing else do what the sequential description says: a task, the handler of a proof, a request. *)
Theorem C150_task {P : prims} x z (c : caconf P) cc m ps s ds : exists n, cfrun x z c cc (mkfc s []) (FTick ds :: repeat (FRun 0 m ps) n) =
  let '(s', certs, ms) := issue x c s ds in (mkfc (ca_end_period z c s' ps m) [], (map CSigned certs ++ map CMsg ms)%list).
Proof. exact (@task_alone P x z c cc m ps s ds). Qed.
Print Assumptions C150_task.
Theorem C150_proof {P : prims} x z (c : caconf P) cc m ps s q : cfrun x z c cc (mkfc s []) (FProof q :: repeat (FRun 0 m ps) 3) = (mkfc (receive_poi s q) [], []).
Proof. exact (@poi_alone P x z c cc m ps s q). Qed.
Print Assumptions C150_proof.
Theorem C150_request {P : prims} x z (c : caconf P) cc m ps s :
  cfrun x z c cc (mkfc s []) (FAsk :: repeat (FRun 0 m ps) 2) = (mkfc (fst (request_rev s m)) [], [CReply m (snd (request_rev s m))]).
Proof. exact (@ask_alone P x z c cc m ps s). Qed.
Print Assumptions C150_request.

Example C150_ex : gzip_ok toy_z /\ positions_ok quiet_ca /\ cc_sign_scheme (toy_cc "localhost:9000" 0) = "rsa" /\
  cc_rsa_pubs (toy_cc "localhost:9000" 0) !! cac_self toy_ca = Some (cac_key toy_ca) /\
  (exists g, CReply 8 (Answer g) ∈ snd (cfrun toy_x toy_z toy_ca (toy_cc "localhost:9000" 0) toy_fc0 (rev_twice [2%N])) /\ g <> zero_obj).
Proof. exact answers_ex. Qed.

(* ---------------------------------------------------------------- *)
(** C151: a normal CA gives the same answer for a minute as long as no task for that minute is about to store its object or reads the clock ... *)
Theorem C151_same_answer_partial {P : prims} x z (c : caconf P) cc k d1 d2 l l' m : let y := fst (cfrun x z c cc (fc_init x c 0 k d1 d2) l) in
  (forall a, a ∈ fc_go y -> other_minute (unpadded m) a) -> (forall n m' ps, FRun n m' ps ∈ l' -> S m' <> m) ->
  snd (request_rev (fc_st (fst (cfrun x z c cc y l'))) m) = snd (request_rev (fc_st y) m).
Proof. exact (@same_answer P x z c cc k d1 d2 l l' m). Qed.
Print Assumptions C151_same_answer_partial.

(** REFUTED in general: with two tasks of one minute, a normal CA gives two monitors objects that convict it ... *)
Theorem C151_two_objects_refuted {P : prims} x z (c : caconf P) cc : gzip_ok z -> forall k d1 d2 ps i, i ∈ ps -> (forall i, i ∈ ps -> index_ok i) -> exists g1 g2,
  snd (cfrun x z c cc (fc_init x c 0 k d1 d2) (rev_twice ps)) = [CReply 8 (Answer g1); CReply 8 (Answer g2)] /\ evidence g1 g2.
Proof. exact (@two_revocations P x z c cc). Qed.
Print Assumptions C151_two_objects_refuted.

(** ... or it revokes certificates, and no answer it ever gives says so. *)
Theorem C151_lost_refuted {P : prims} x z (c : caconf P) cc : gzip_ok z -> forall k d1 d2 ps i, i ∈ ps -> (forall i, i ∈ ps -> index_ok i) ->
  revokes (v_cur (a_crv (fc_st (fst (cfrun x z c cc (fc_init x c 0 k d1 d2) (rev_lost ps)))))) i /\
  forall l m g, CReply m (Answer g) ∈ snd (cfrun x z c cc (fc_init x c 0 k d1 d2) (rev_lost ps ++ l)) -> g = zero_obj \/ ~ revokes (snd (srh_and_dcrv z g)) i.
Proof. exact (@revocations_lost P x z c cc). Qed.
Print Assumptions C151_lost_refuted.

Example C151_ex : forall a, a ∈ fc_go (fst (cfrun toy_x toy_z toy_ca (toy_cc "localhost:9000" 0) toy_fc0 quiet_ca)) -> other_minute (unpadded 8) a.
Proof. exact quiet_ca_other. Qed.
