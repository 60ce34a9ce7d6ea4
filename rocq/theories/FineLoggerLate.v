(** Submissions before and during a task (FineLogger.v). *)
From Verif Require Import Bytes Types Crypto Verify Merkle Cert CertPool CTngExt Clock Logger SpecVerify SpecCert SpecLogger FineLogger SpecFineLogger CertFacts FineLoggerFacts FineLoggerMore.
Open Scope string_scope.

Section late.
Context {P : prims} (c : lconf P).

Lemma add_in s d x : d ∈ get_certs s -> d ∈ get_certs (add_cert s x).
Proof. unfold get_certs, add_cert. destruct (contains s x); [done|]. cbn [p_certs]. intros H. apply elem_of_app. by left. Qed.
Lemma added s x : indexed s -> (forall d, d ∈ get_certs s -> c_subject d <> c_subject x) -> x ∈ get_certs (add_cert s x).
Proof.
  intros Hi H. unfold add_cert. destruct (contains s x) eqn:E.
  - rewrite contains_spec in E by done. apply existsb_exists in E as (d & Hd & E). exfalso. apply (H d); [by apply elem_of_list_In|].
    unfold same_cert in E. apply andb_prop in E as [E%String.eqb_eq _]. congruence.
  - unfold get_certs. cbn [p_certs]. apply elem_of_app. right. by left.
Qed.

Lemma quiet_run l : forall y y' o, fl_go y = [] -> FTick ∉ l -> lfrun c y l = Some (y', o) -> fl_go y' = [] /\ forall d, d ∈ get_certs (l_pool (fl_st y)) -> d ∈ get_certs (l_pool (fl_st y')).
Proof.
  induction l as [|e r IH]; intros y y' o G N R; cbn [lfrun] in R; [by injection R as <- _|].
  apply not_elem_of_cons in N as [N1 N2]. destruct (lfstep c y e) as [[y1 o1]|] eqn:E; [|done]. destruct (lfrun c y1 r) as [[y2 o2]|] eqn:Q; [|done]. injection R as <- _.
  assert (K : fl_go y1 = [] /\ forall d, d ∈ get_certs (l_pool (fl_st y)) -> d ∈ get_certs (l_pool (fl_st y1))).
  { destruct e as [x|m| |n t up]; cbn [lfstep] in E.
    - injection E as <- _. split; [done|]. intros d Hd. cbn [fl_st receive_precert set_l_pool l_pool]. by apply add_in.
    - injection E as <- _. done.
    - done.
    - rewrite G in E. cbn in E. by injection E as <- _. }
  destruct K as [K1 K2]. destruct (IH y1 y2 o2 K1 N2 Q) as [H1 H2]. split; [done|]. auto.
Qed.

Lemma submitted_gets ty k l y o x l1 y1 o1 l2 y2 o2 : lfrun c (fl_init ty k) l = Some (y, o) -> fl_go y = [] ->
  (forall d, d ∈ get_certs (l_pool (fl_st y)) -> c_subject d <> c_subject (tbs_certificate x)) -> c_ski (tbs_certificate x) <> "" ->
  FTick ∉ l1 -> FTick ∉ l2 -> lfrun c y (FSubmit x :: l1) = Some (y1, o1) -> lfrun c y1 (FTick :: l2) = Some (y2, o2) -> fl_go y2 = [] ->
  key_ids_agree (get_certs (l_pool (fl_st y1)) ++ arrivals l2) ->
  exists p g root q, l_sth (fl_st y2) !! pad2 p = Some g /\ extract_root_hash g = Some root /\ posted c o2 g /\ LMsg (PoiTo (c_issuer_cn (tbs_certificate x)) q) ∈ o2 /\ proof_for c (tbs_certificate x) root q.
Proof.
  intros R G New Ski N1 N2 R1 R2 G2 Ag.
  assert (F : lfrun c (fl_init ty k) (l ++ FSubmit x :: l1) = Some (y1, (o ++ o1)%list)) by (by rewrite runs_app, R, R1).
  cbn [lfrun lfstep] in R1. destruct (lfrun c _ l1) as [[y1' o1']|] eqn:Q; [|done]. injection R1 as -> <-.
  destruct (quiet_run l1 (mkfl (receive_precert (fl_st y) x) (fl_go y)) _ _ G N1 Q) as [K1 K2]. cbn [fl_st receive_precert set_l_pool l_pool] in K2.
  destruct (one_task c ty k _ _ _ l2 y2 o2 F K1 N2 R2 G2 Ag) as (p & g & root & A1 & A2 & A3 & A4).
  destruct (A4 (tbs_certificate x)) as (q & Q1 & Q2); [apply K2, added; [|done]|done|by exists p, g, root, q].
  destruct (i_pool _ _ _ _ (fine_inv c ty k l y o R)) as (b & -> & _). apply add_all_spec.
Qed.

Lemma ended_empty y n t up y' o : lfrun c y [FRun n t up] = Some (y', o) -> length (fl_go y') < length (fl_go y) -> get_certs (l_pool (fl_st y')) = [].
Proof.
  cbn [lfrun lfstep]. destruct (fl_go y !! n) as [a|] eqn:G; [|intros [= <- _]; lia].
  destruct (lgstep c (fl_st y) a t up) as [[[s [a'|]] o']|] eqn:L; [|..|done]; intros [= <- _]; cbn [fl_go fl_st]; [rewrite insert_length; lia|]. intros _.
  destruct a as [|p|p g root pois|p g fk root pois|p g fk root pois|[|ca r] g root pois|root [|q r]| |]; cbn [lgstep] in L; try done;
    repeat match type of L with context [match ?u with _ => _ end] => destruct u; try done end. by injection L as <- _.
Qed.
End late.
