(** Properties of a logger whose tasks, submissions and requests interleave. *)
From Verif Require Import Bytes Types Crypto Verify Merkle Cert CertPool CTngExt Clock Logger SpecVerify SpecLogger FineLogger SpecFineLogger FineLoggerFacts FineLoggerMore FineLoggerLate.
From Verif Require Import Toy RefuteLogger RefuteFineLogger.
Open Scope string_scope.

(* ---------------------------------------------------------------- *)
(** C146: in every interleaving, a head that a logger posts goes to a configured CA, and is its signed head of a tree over different submitted certificates ... *)
Theorem C146_heads {P : prims} (c : lconf P) ty k l y o ca g : lfrun c (fl_init ty k) l = Some (y, o) -> LMsg (SthTo ca g) ∈ o ->
  ca ∈ lc_cas c /\ exists p root certs, head_of c l p g root certs.
Proof. exact (@fine_heads P c ty k l y o ca g). Qed.
Print Assumptions C146_heads.

(** ... a proof that it posts goes to the issuer of a certificate in such a tree, verifies for it against a root whose head every CA was sent ... *)
Theorem C146_proofs {P : prims} (c : lconf P) ty k l y o ca q : lfrun c (fl_init ty k) l = Some (y, o) -> LMsg (PoiTo ca q) ∈ o ->
  ca = poi_issuer q /\ exists p g root certs x, head_of c l p g root certs /\ posted c o g /\ x ∈ certs /\ proof_for c x root q.
Proof. exact (@fine_proofs P c ty k l y o ca q). Qed.
Print Assumptions C146_proofs.

(** ... and a normal logger answers with nothing (an empty object), or with such a head for the minute asked about, which every CA was sent or a running task is about to send. *)
Theorem C146_answer {P : prims} (c : lconf P) k l y o m g : lfrun c (fl_init 0 k) l = Some (y, o) -> snd (request_sth (fl_st y) m) = Answer g ->
  g = zero_obj \/ (exists root certs, head_of c l m g root certs) /\ (posted c o g \/ exists a, a ∈ fl_go y /\ posting a g).
Proof. exact (@fine_answer P c k l y o m g). Qed.
Print Assumptions C146_answer.

(** A task that meets nothing else does what the sequential description says, including its death. *)
Theorem C146_alone {P : prims} (c : lconf P) t up s : exists n, lfrun c (mkfl s []) (FTick :: repeat (FRun 0 t up) n) =
  let '(s', ms, ok) := publish c up s t t t in if ok then Some (mkfl (end_period s') [], map LMsg ms) else None.
Proof. exact (@task_alone P c t up s). Qed.
Print Assumptions C146_alone.

Example C146_ex : lfrun toy_logger lstart whole = Some (lst_of whole, lout_of whole) /\ count_out (lout_of whole) = (1, 2, 1).
Proof. exact (conj whole_lives (proj1 whole_shows)). Qed.

(* ---------------------------------------------------------------- *)
(** C147: every certificate in the pool when a task starts gets its proof, whatever is submitted and asked meanwhile, if no second task starts and certificates with one
    key identifier have one subject ... *)
Theorem C147_delivered_partial {P : prims} (c : lconf P) ty k l y o l2 y2 o2 : lfrun c (fl_init ty k) l = Some (y, o) -> fl_go y = [] -> FTick ∉ l2 ->
  lfrun c y (FTick :: l2) = Some (y2, o2) -> fl_go y2 = [] -> key_ids_agree (get_certs (l_pool (fl_st y)) ++ arrivals l2) ->
  exists p g root, l_sth (fl_st y2) !! pad2 p = Some g /\ extract_root_hash g = Some root /\ posted c o2 g /\
    forall x, x ∈ get_certs (l_pool (fl_st y)) -> c_ski x <> "" -> exists q, LMsg (PoiTo (c_issuer_cn x) q) ∈ o2 /\ proof_for c x root q.
Proof. exact (@one_task P c ty k l y o l2 y2 o2). Qed.
Print Assumptions C147_delivered_partial.

(** ... and the process survives, with two certificates in the pool and reachable CAs. *)
Theorem C147_survives_partial {P : prims} (c : lconf P) ty k l y o l2 : lfrun c (fl_init ty k) l = Some (y, o) -> fl_go y = [] -> FTick ∉ l2 ->
  (forall n t up ca, FRun n t up ∈ l2 -> up ca = true) ->
  key_ids_agree (get_certs (l_pool (fl_st y)) ++ arrivals l2) -> 2 <= length (get_certs (l_pool (fl_st y))) -> is_Some (lfrun c y (FTick :: l2)).
Proof. exact (@one_task_lives P c ty k l y o l2). Qed.
Print Assumptions C147_survives_partial.

(** In particular a precertificate that arrives while no task is running gets its proof from the next task, if the pool has none with its subject ... *)
Theorem C147_submitted_partial {P : prims} (c : lconf P) ty k l y o x l1 y1 o1 l2 y2 o2 : lfrun c (fl_init ty k) l = Some (y, o) -> fl_go y = [] ->
  (forall d, d ∈ get_certs (l_pool (fl_st y)) -> c_subject d <> c_subject (tbs_certificate x)) -> c_ski (tbs_certificate x) <> "" ->
  FTick ∉ l1 -> FTick ∉ l2 -> lfrun c y (FSubmit x :: l1) = Some (y1, o1) -> lfrun c y1 (FTick :: l2) = Some (y2, o2) -> fl_go y2 = [] ->
  key_ids_agree (get_certs (l_pool (fl_st y1)) ++ arrivals l2) ->
  exists p g root q, l_sth (fl_st y2) !! pad2 p = Some g /\ extract_root_hash g = Some root /\ posted c o2 g /\
    LMsg (PoiTo (c_issuer_cn (tbs_certificate x)) q) ∈ o2 /\ proof_for c (tbs_certificate x) root q.
Proof. exact (@submitted_gets P c ty k l y o x l1 y1 o1 l2 y2 o2). Qed.
Print Assumptions C147_submitted_partial.

(** ... but REFUTED for one that arrives while a task is running: whenever a task ends, in whatever state, the pool is empty, with whatever was submitted during the task
    (in [C147_late_ex] a third certificate, for which no proof is ever sent). *)
Theorem C147_late_refuted {P : prims} (c : lconf P) y n t up y' o : lfrun c y [FRun n t up] = Some (y', o) -> length (fl_go y') < length (fl_go y) ->
  get_certs (l_pool (fl_st y')) = [].
Proof. exact (@ended_empty P c y n t up y' o). Qed.
Print Assumptions C147_late_refuted.

Example C147_submitted_ex : lfrun toy_logger lstart one_in = Some (lst_of one_in, lout_of one_in) /\ fl_go (lst_of one_in) = [] /\
  (forall d, d ∈ get_certs (l_pool (fl_st (lst_of one_in))) -> c_subject d <> c_subject (tbs_certificate (toy_cert "s2" "k2" 2))) /\ c_ski (tbs_certificate (toy_cert "s2" "k2" 2)) <> "" /\
  lfrun toy_logger (lst_of one_in) [FSubmit (toy_cert "s2" "k2" 2)] = Some (lst_of two_in, []).
Proof. exact before_shown. Qed.

Example C147_late_ex : FSubmit (toy_cert "s3" "k3" 3) ∈ all_but_end /\ lfrun toy_logger (lst_of all_but_end) [turn 0] = Some (lst_of whole, []) /\
  map c_ski (get_certs (l_pool (fl_st (lst_of all_but_end)))) = ["k1"; "k2"; "k3"] /\ length (fl_go (lst_of whole)) < length (fl_go (lst_of all_but_end)).
Proof. exact end_shown. Qed.

(** REFUTED for overlapping tasks: with all CAs reachable, the process dies when a task looks up the certificate of its next proof. *)
Theorem C147_overlap_refuted : exists l1 e y o, lfrun toy_logger lstart l1 = Some (y, o) /\ lfrun toy_logger lstart (l1 ++ [e]) = None /\
  forall n t up ca, FRun n t up ∈ (l1 ++ [e])%list -> up ca = true.
Proof.
  exact (ex_intro _ (take 23 fatal) (ex_intro _ (turn 0) (ex_intro _ _ (ex_intro _ _ (conj (proj1 fatal_dies)
    (eq_rect _ (λ l, lfrun toy_logger lstart l = None /\ forall n t up ca, FRun n t up ∈ l -> up ca = true) (conj (proj1 (proj2 fatal_dies)) fatal_well) _ (proj2 (proj2 fatal_dies)))))))).
Qed.
Print Assumptions C147_overlap_refuted.

Example C147_ex : lfrun toy_logger lstart two_in = Some (lst_of two_in, lout_of two_in) /\ lfrun toy_logger (lst_of two_in) (FTick :: amid) = Some (lst_of whole, lout_of whole) /\
  (count_out (lout_of whole) = (1, 2, 1) /\ fl_go (lst_of whole) = [] /\ fl_go (lst_of two_in) = []) /\
  (key_ids_agree (get_certs (l_pool (fl_st (lst_of two_in))) ++ arrivals amid) /\ FTick ∉ amid /\
   length (get_certs (l_pool (fl_st (lst_of two_in)))) = 2 /\ (forall n t up ca, FRun n t up ∈ amid -> up ca = true)).
Proof. exact (conj two_lives (conj amid_lives (conj whole_shows whole_agrees))). Qed.

(* ---------------------------------------------------------------- *)
(** C148: a normal logger gives the same answer for a minute, as long as no task for that minute is about to store its head or reads the clock ... *)
Theorem C148_same_answer_partial {P : prims} (c : lconf P) k l y o l' y' o' m : lfrun c (fl_init 0 k) l = Some (y, o) -> lfrun c y l' = Some (y', o') ->
  (forall a, a ∈ fl_go y -> other_period m a) -> (forall n t up, FRun n t up ∈ l' -> S (n_minute t) <> m) ->
  snd (request_sth (fl_st y') m) = snd (request_sth (fl_st y) m).
Proof. exact (@fine_same_answer P c k l y o l' y' o' m). Qed.
Print Assumptions C148_same_answer_partial.

(** REFUTED in general: a normal logger gives two monitors heads that convict it. *)
Theorem C148_two_heads_refuted : exists y o g1 g2, lfrun toy_logger lstart twice = Some (y, o) /\ answers_of o = [g1; g2] /\ get_id g1 = get_id g2 /\ covered g1 <> covered g2.
Proof. exact twice_differs. Qed.
Print Assumptions C148_two_heads_refuted.

Example C148_ex : lfrun toy_logger lstart whole = Some (lst_of whole, lout_of whole) /\ fl_go (lst_of whole) = [] /\ l_type (fl_st lstart) = 0%Z.
Proof. exact (conj whole_lives (conj (proj1 (proj2 whole_shows)) eq_refl)). Qed.
