(** Accusations and overlapping handlers: an example, and a race in which one
    accuser is counted twice. *)
From Verif Require Import Bytes Hex Json Types Crypto Verify Prog Gossiper Network Overlap SpecCodec SpecVerify SpecGossiper SpecNetwork SpecOverlap SpecDetect SpecAccuse SpecOverlapAccuse Toy ToyFacts ProgFacts GossiperSeq RefuteGossiper NetworkNode RefuteNetwork RefuteOverlap RefuteDetect RefuteOverlapDetect RefuteAccuse.
From Coq Require Import Lia.
Open Scope string_scope.

(** The fragment of g1 reaches g2 from g1 and from g3; both handlers at g2 look for it
    before either stores it. *)
Definition copies : list oevent := (OHand "g1" acc_ca :: repeat (ORun "g1" 0) 30 ++ ODeliver 1 :: repeat (ORun "g3" 0) 30 ++
  [ODeliver 0; ODeliver 1; ORun "g2" 0; ORun "g2" 1; ORun "g2" 0; ORun "g2" 1; ORun "g2" 0; ORun "g2" 1])%list.
Definition run_copies : list oevent := Eval vm_compute in (copies ++ odrain plain3 true 400 (onet_run plain3 o_plain copies))%list.
(** Then g2 is handed an accusation as well. *)
Definition run_late : list oevent := Eval vm_compute in
  (run_copies ++ OHand "g2" acc_lg :: odrain plain3 true 400 (onet_run plain3 o_plain (run_copies ++ [OHand "g2" acc_lg])))%list.
(** A run in which nothing is stored twice. *)
Definition both_hands : list oevent := [OHand "g1" acc_ca; OHand "g2" acc_lg; OHand "g3" sth_a; ORun "g1" 0; ORun "g2" 0; ORun "g1" 0; ORun "g2" 0].
Definition run_both : list oevent := Eval vm_compute in (both_hands ++ odrain plain3 true 900 (onet_run plain3 o_plain both_hands))%list.

Definition black_at (N : onet) (v e : string) : bool := match on_nodes N !! v with Some y => bool_decide (e ∈ t_black (p_st y)) | None => false end.
Definition clean_at (N : onet) (v : string) : bool := match on_nodes N !! v with Some y => bool_decide (t_black (p_st y) = ∅) | None => false end.
Definition distinct_at (N : onet) (v e : string) : bool := match on_nodes N !! v with Some y => bool_decide (NoDup (accusation_signers "07" e (p_st y))) | None => true end.
Lemma black_at_sound N v e : black_at N v e = true -> exists y, on_nodes N !! v = Some y /\ e ∈ t_black (p_st y).
Proof. unfold black_at. destruct (on_nodes N !! v) as [y|]; [|done]. intros H. exists y. by apply bool_decide_eq_true in H. Qed.
Lemma clean_at_sound N v : clean_at N v = true -> exists y, on_nodes N !! v = Some y /\ t_black (p_st y) = ∅.
Proof. unfold clean_at. destruct (on_nodes N !! v) as [y|]; [|done]. intros H. exists y. by apply bool_decide_eq_true in H. Qed.
Lemma distinct_at_sound N v e : distinct_at N v e = true -> forall y, on_nodes N !! v = Some y -> NoDup (accusation_signers "07" e (p_st y)).
Proof. unfold distinct_at. intros H y Hy. rewrite Hy in H. by apply bool_decide_eq_true in H. Qed.

Lemma run_copies_ok : is_oquiet (onet_run plain3 o_plain run_copies) && black_at (onet_run plain3 o_plain run_copies) "g2" log1 && hands_among [("g1", acc_ca)] run_copies = true.
Proof. vm_compute. reflexivity. Qed.
Lemma run_late_ok : is_oquiet (onet_run plain3 o_plain run_late) && clean_at (onet_run plain3 o_plain run_late) "g3" && hands_among [("g1", acc_ca); ("g2", acc_lg)] run_late &&
  existsb (λ e, match e with OHand w g => bool_decide ((w, g) = ("g2", acc_lg)) | _ => false end) run_late = true /\ run_late !! 0 = Some (OHand "g1" acc_ca).
Proof. vm_compute. split; reflexivity. Qed.
Lemma run_both_ok : is_oquiet (onet_run plain3 o_plain run_both) && distinct_at (onet_run plain3 o_plain run_both) "g1" log1 && distinct_at (onet_run plain3 o_plain run_both) "g2" log1 &&
  hands_among [("g1", acc_ca); ("g2", acc_lg); ("g3", sth_a)] run_both && black_at (onet_run plain3 o_plain run_both) "g3" log1 && distinct_at (onet_run plain3 o_plain run_both) "g3" log1 = true /\
  run_both !! 0 = Some (OHand "g1" acc_ca) /\ run_both !! 1 = Some (OHand "g2" acc_lg).
Proof. vm_compute. split; [reflexivity|split; reflexivity]. Qed.

Lemma handed_in l w g : existsb (λ e, match e with OHand w' g' => bool_decide ((w', g') = (w, g)) | _ => false end) l = true -> OHand w g ∈ l.
Proof. intros H. apply existsb_exists in H as (x & Hx & E). destruct x; try done. apply bool_decide_eq_true in E. injection E as -> ->. by apply elem_of_list_In. Qed.

Lemma hands_one u a l : hands_among [(u, a)] l = true -> forall w g, OHand w g ∈ l -> w = u /\ g = a.
Proof. intros H w g Hg. apply (hands_among_sound _ _ H), elem_of_list_singleton in Hg. by injection Hg. Qed.
Lemma hands_two u v a b l : hands_among [(u, a); (v, b)] l = true -> forall w g, OHand w g ∈ l -> g ∈ [a; b].
Proof. intros H w g Hg. apply (hands_among_sound _ _ H) in Hg. rewrite !elem_of_cons, elem_of_nil in Hg. destruct Hg as [[= _ ->]|[[= _ ->]|[]]]; [by left|right; by left]. Qed.
Lemma hands_three u v x a b d l : hands_among [(u, a); (v, b); (x, d)] l = true -> forall w g, OHand w g ∈ l -> g = a \/ g = b \/ g = d.
Proof. intros H w g Hg. apply (hands_among_sound _ _ H) in Hg. rewrite !elem_of_cons, elem_of_nil in Hg. destruct Hg as [[= _ ->]|[[= _ ->]|[[= _ ->]|[]]]]; tauto. Qed.

Lemma single_accusation : accusations plain3 log1 "07" [acc_ca].
Proof.
  pose proof plain3_accusations as [H1 H2 H3 H4]. split; [exact H1| | |].
  - intros a Ha. apply H2. apply elem_of_list_singleton in Ha as ->. by left.
  - intros a b Ha Hb. apply elem_of_list_singleton in Ha as ->. apply elem_of_list_singleton in Hb as ->. split_and!; reflexivity.
  - intros a u c Ha. apply H4. apply elem_of_list_singleton in Ha as ->. by left.
Qed.

(** One accusation, handed to one gossiper: another one blacklists the entity. *)
Lemma counted_twice_refuted : exists (P : prims) (cfgs : gmap string (gconf P)) T p sec st e a u l,
  honest_network cfgs T /\ 1 < T /\ accusations cfgs e p [a] /\ (forall w g, OHand w g ∈ l -> w = u /\ g = a) /\
  let N := onet_run cfgs (onet_init cfgs p sec st) l in
  oquiescent N /\ exists v y, on_nodes N !! v = Some y /\ e ∈ t_black (p_st y).
Proof.
  exists toy, plain3, 2, "07", "s", "t", log1, acc_ca, "g1", run_copies.
  pose proof run_copies_ok as H. apply andb_true_iff in H as [H H3]. apply andb_true_iff in H as [H1 H2].
  split; [apply three_honest; lia|]. split; [lia|]. split; [exact single_accusation|]. split.
  { intros w g Hg. exact (hands_one _ _ _ H3 w g Hg). }
  split; [exact (is_oquiet_sound _ H1)|]. exists "g2". exact (black_at_sound _ _ _ H2).
Qed.

(** Two of three gossipers with threshold two are handed an accusation; the third one does
    not blacklist the entity. *)
Lemma late_refuted : exists (P : prims) (cfgs : gmap string (gconf P)) T p sec st e As us l,
  honest_network cfgs T /\ accusations cfgs e p As /\ (forall w g, OHand w g ∈ l -> g ∈ As) /\
  NoDup us /\ length us = T /\ (forall u, u ∈ us -> is_Some (cfgs !! u) /\ oaccuser As l u) /\
  let N := onet_run cfgs (onet_init cfgs p sec st) l in
  oquiescent N /\ exists v y, on_nodes N !! v = Some y /\ t_black (p_st y) = ∅.
Proof.
  exists toy, plain3, 2, "07", "s", "t", log1, [acc_ca; acc_lg], ["g1"; "g2"], run_late.
  pose proof run_late_ok as [H G]. apply andb_true_iff in H as [H H4]. apply andb_true_iff in H as [H H3]. apply andb_true_iff in H as [H1 H2].
  split; [apply three_honest; lia|]. split; [apply plain3_accusations|]. split.
  { exact (hands_two _ _ _ _ _ H3). }
  split. { apply (bool_decide_unpack _). vm_compute. reflexivity. }
  split; [reflexivity|]. split.
  { intros u Hu. rewrite !elem_of_cons, elem_of_nil in Hu. destruct Hu as [->|[->|[]]]; (split; [apply three_known; rewrite !elem_of_cons; tauto|]).
    - exists acc_ca. split; [by left|]. exact (elem_of_list_lookup_2 _ _ _ G).
    - exists acc_lg. split; [right; by left|]. exact (handed_in _ _ _ H4). }
  split; [exact (is_oquiet_sound _ H1)|]. exists "g3". exact (clean_at_sound _ _ H2).
Qed.

Lemma both_undisturbed : oundisturbed log1 [acc_ca; acc_lg] run_both.
Proof.
  pose proof run_both_ok as (H & _ & _). apply andb_true_iff in H as [H _]. apply andb_true_iff in H as [H _]. apply andb_true_iff in H as [_ H].
  assert (forall w g, OHand w g ∈ run_both -> g = acc_ca \/ g = acc_lg \/ g = sth_a) as Hh.
  { exact (hands_three _ _ _ _ _ _ _ H). }
  intros u g Hg _. destruct (Hh u g Hg) as [->|[->| ->]]; [left; by left|left; right; by left|].
  right. split; [rewrite !elem_of_cons, elem_of_nil; intros [E|[E|[E|[E|[]]]]]; discriminate E|].
  intros _. split; [discriminate|]. intros v h Hv. destruct (Hh v h Hv) as [->|[->| ->]]; [discriminate|discriminate|reflexivity].
Qed.

Lemma both_hypotheses : honest_network plain3 2 /\ accusations plain3 log1 "07" [acc_ca; acc_lg] /\ oundisturbed log1 [acc_ca; acc_lg] run_both /\
  oquiescent (onet_run plain3 (onet_init plain3 "07" "s" "t") run_both) /\
  (forall u, u ∈ ["g1"; "g2"] -> is_Some (plain3 !! u) /\ oaccuser [acc_ca; acc_lg] run_both u) /\
  (forall u y, u ∈ ["g1"; "g2"] -> on_nodes (onet_run plain3 (onet_init plain3 "07" "s" "t") run_both) !! u = Some y ->
     NoDup (accusation_signers "07" log1 (p_st y))) /\
  exists y, on_nodes (onet_run plain3 (onet_init plain3 "07" "s" "t") run_both) !! "g3" = Some y /\ log1 ∈ t_black (p_st y) /\
     NoDup (accusation_signers "07" log1 (p_st y)).
Proof.
  pose proof run_both_ok as (H & G1 & G2). apply andb_true_iff in H as [H H6]. apply andb_true_iff in H as [H H5]. apply andb_true_iff in H as [H _]. apply andb_true_iff in H as [H H3].
  apply andb_true_iff in H as [H1 H2].
  split; [apply three_honest; lia|]. split; [apply plain3_accusations|]. split; [apply both_undisturbed|]. split; [exact (is_oquiet_sound _ H1)|]. split; [|split].
  - intros u Hu. rewrite !elem_of_cons, elem_of_nil in Hu. destruct Hu as [->|[->|[]]]; (split; [apply three_known; rewrite !elem_of_cons; tauto|]).
    + exists acc_ca. split; [by left|]. exact (elem_of_list_lookup_2 _ _ _ G1).
    + exists acc_lg. split; [right; by left|]. exact (elem_of_list_lookup_2 _ _ _ G2).
  - intros u y Hu. rewrite !elem_of_cons, elem_of_nil in Hu. destruct Hu as [->|[->|[]]]; [exact (distinct_at_sound _ _ _ H2 y)|exact (distinct_at_sound _ _ _ H3 y)].
  - destruct (black_at_sound _ _ _ H5) as (y & Hy & Hb). exists y. split; [exact Hy|]. split; [exact Hb|]. exact (distinct_at_sound _ _ _ H6 y Hy).
Qed.
