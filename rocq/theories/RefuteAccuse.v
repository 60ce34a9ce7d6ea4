(** Accusations: an example, and what goes wrong. *)
From Verif Require Import Bytes Hex Json Types Crypto Verify Prog Gossiper Network SpecCodec SpecVerify SpecGossiper SpecNetwork SpecAccuse Toy ToyFacts ProgFacts GossiperSeq RefuteGossiper NetworkNode RefuteNetwork RefuteDetect.
From Coq Require Import Lia.
Open Scope string_scope.

(** Two accusations of [log1]: one signed by a CA, one by another logger. *)
Definition accuse_by (sk id : string) : gobj :=
  mkobj CTNG_APPLICATION "07" ACC_INIT id [] (toy_rsa_sig sk id log1) "" "t" "RSA" log1 "" "".
Definition acc_ca : gobj := accuse_by "k3" ca1.
Definition acc_lg : gobj := accuse_by "k2" "localhost:9101".

Lemma plain3_accusations : accusations plain3 log1 "07" [acc_ca; acc_lg].
Proof.
  split.
  - discriminate.
  - intros a Ha. rewrite !elem_of_cons, elem_of_nil in Ha. destruct Ha as [->|[->|[]]]; split_and!; reflexivity.
  - intros a b Ha Hb. rewrite !elem_of_cons, elem_of_nil in Ha, Hb. destruct Ha as [->|[->|[]]], Hb as [->|[->|[]]]; split_and!; reflexivity.
  - intros a u c Ha Hc. rewrite !elem_of_cons, elem_of_nil in Ha. apply three_cases in Hc.
    destruct Ha as [->|[->|[]]], Hc as [[-> ->]|[[-> ->]|[-> ->]]]; vm_compute; reflexivity.
Qed.

Definition run_acc : list nevent := full_run plain3 [NHand "g1" acc_ca; NHand "g3" sth_a; NHand "g2" acc_lg].
Lemma run_acc_ok : is_nil (nt_flight (net_run plain3 (net_init plain3 "07" "s" "t") run_acc)) && all_black (net_run plain3 (net_init plain3 "07" "s" "t") run_acc) = true.
Proof. vm_compute. reflexivity. Qed.

Lemma run_acc_hands w g : NHand w g ∈ run_acc <-> (w = "g1" /\ g = acc_ca) \/ (w = "g3" /\ g = sth_a) \/ (w = "g2" /\ g = acc_lg).
Proof.
  unfold run_acc. rewrite full_run_hand, !elem_of_cons, elem_of_nil. split.
  - intros [[= -> ->]|[[= -> ->]|[[= -> ->]|[]]]]; tauto.
  - intros [[-> ->]|[[-> ->]|[-> ->]]]; tauto.
Qed.

Lemma run_acc_undisturbed : undisturbed log1 [acc_ca; acc_lg] run_acc.
Proof.
  intros u g Hg _. apply run_acc_hands in Hg as [[_ ->]|[[_ ->]|[_ ->]]]; [left; by left| |left; right; by left].
  right. split; [rewrite !elem_of_cons, elem_of_nil; intros [H|[H|[H|[H|[]]]]]; discriminate H|].
  intros _. split; [discriminate|]. intros v h Hh. apply run_acc_hands in Hh as [[_ ->]|[[_ ->]|[_ ->]]]; [discriminate|reflexivity|discriminate].
Qed.

Lemma run_acc_hypotheses : honest_network plain3 2 /\ accusations plain3 log1 "07" [acc_ca; acc_lg] /\ undisturbed log1 [acc_ca; acc_lg] run_acc /\
  nt_flight (net_run plain3 (net_init plain3 "07" "s" "t") run_acc) = [] /\
  (forall u, u ∈ ["g1"; "g2"] -> is_Some (plain3 !! u) /\ accuser [acc_ca; acc_lg] run_acc u).
Proof.
  split; [apply three_honest; lia|]. split; [apply plain3_accusations|]. split; [apply run_acc_undisturbed|]. split.
  { pose proof run_acc_ok as H. apply andb_true_iff in H as [H _]. by destruct (nt_flight _). }
  intros u Hu. rewrite !elem_of_cons, elem_of_nil in Hu. destruct Hu as [->|[->|[]]]; (split; [apply three_known; rewrite !elem_of_cons; tauto|]).
  - exists acc_ca. split; [by left|]. apply run_acc_hands. tauto.
  - exists acc_lg. split; [right; by left|]. apply run_acc_hands. tauto.
Qed.

(** ** A made-up fragment, handed in by anybody, and nobody is blacklisted *)
Definition junk_acc : gobj := toy_frag ACC_FRAG "07" "g3" 7 log1 "" "".
Definition run_spoiled : list nevent := full_run plain3 (full_run plain3 [NHand "g3" junk_acc] ++ [NHand "g1" acc_ca; NHand "g2" acc_lg]).
Lemma run_spoiled_ok : is_quiet (net_run plain3 (net_init plain3 "07" "s" "t") run_spoiled) && none_black (net_run plain3 (net_init plain3 "07" "s" "t") run_spoiled) = true.
Proof. vm_compute. reflexivity. Qed.

Lemma run_spoiled_hands w g : NHand w g ∈ run_spoiled <-> (w = "g3" /\ g = junk_acc) \/ (w = "g1" /\ g = acc_ca) \/ (w = "g2" /\ g = acc_lg).
Proof.
  unfold run_spoiled. rewrite full_run_hand, elem_of_app, full_run_hand, !elem_of_cons, elem_of_nil. split.
  - intros [[[= -> ->]|[]]|[[= -> ->]|[[= -> ->]|[]]]]; tauto.
  - intros [[-> ->]|[[-> ->]|[-> ->]]]; tauto.
Qed.

Lemma spoiled_refuted : exists (P : prims) (cfgs : gmap string (gconf P)) T p sec st e As j us l,
  honest_network cfgs T /\ accusations cfgs e p As /\
  (forall w g, NHand w g ∈ l -> g ∈ As \/ g = j) /\ (forall u c, cfgs !! u = Some c -> verify (gc_crypto c) j = Reject) /\
  NoDup us /\ length us = T /\ (forall u, u ∈ us -> is_Some (cfgs !! u) /\ accuser As l u) /\
  let N := net_run cfgs (net_init cfgs p sec st) l in
  quiescent N /\ forall w y, nt_nodes N !! w = Some y -> t_black (s_st y) = ∅.
Proof.
  exists toy, plain3, 2, "07", "s", "t", log1, [acc_ca; acc_lg], junk_acc, ["g1"; "g2"], run_spoiled.
  split; [apply three_honest; lia|]. split; [apply plain3_accusations|]. split.
  { intros w g H. apply run_spoiled_hands in H as [[_ ->]|[[_ ->]|[_ ->]]]; [by right|left; by left|left; right; by left]. }
  split. { intros u c Hc. apply three_cases in Hc as [[-> ->]|[[-> ->]|[-> ->]]]; vm_compute; reflexivity. }
  split. { apply (bool_decide_unpack _). vm_compute. reflexivity. }
  split; [reflexivity|]. split.
  { intros u Hu. rewrite !elem_of_cons, elem_of_nil in Hu. destruct Hu as [->|[->|[]]]; (split; [apply three_known; rewrite !elem_of_cons; tauto|]).
    - exists acc_ca. split; [by left|]. apply run_spoiled_hands. tauto.
    - exists acc_lg. split; [right; by left|]. apply run_spoiled_hands. tauto. }
  pose proof run_spoiled_ok as H. apply andb_true_iff in H as [H1 H2].
  split; [exact (is_quiet_sound _ H1)|exact (none_black_sound _ H2)].
Qed.

(** ** One accusation, handed to enough gossipers *)
Definition run_single : list nevent := full_run plain3 [NHand "g1" acc_ca; NHand "g2" acc_ca].
Lemma run_single_ok : all_black (net_run plain3 (net_init plain3 "07" "s" "t") run_single) = true.
Proof. vm_compute. reflexivity. Qed.

Lemma all_black_sound N : all_black N = true -> forall w y, nt_nodes N !! w = Some y -> log1 ∈ t_black (s_st y).
Proof.
  unfold all_black. rewrite forallb_forall. intros H w y Hw. specialize (H (w, y)). cbn in H.
  apply bool_decide_eq_true in H; [done|]. apply elem_of_list_In, elem_of_map_to_list, Hw.
Qed.

Lemma single_refuted : exists (P : prims) (cfgs : gmap string (gconf P)) T p sec st e a l,
  honest_network cfgs T /\ 1 < T /\ accusations cfgs e p [a] /\ (forall w g, NHand w g ∈ l -> g = a) /\
  let N := net_run cfgs (net_init cfgs p sec st) l in
  forall w y, nt_nodes N !! w = Some y -> e ∈ t_black (s_st y).
Proof.
  exists toy, plain3, 2, "07", "s", "t", log1, acc_ca, run_single.
  split; [apply three_honest; lia|]. split; [lia|]. split.
  { pose proof plain3_accusations as [H1 H2 H3 H4]. split; [exact H1| | |].
    - intros a Ha. apply H2. apply elem_of_list_singleton in Ha as ->. by left.
    - intros a b Ha Hb. apply elem_of_list_singleton in Ha as ->. apply elem_of_list_singleton in Hb as ->. split_and!; reflexivity.
    - intros a u c Ha. apply H4. apply elem_of_list_singleton in Ha as ->. by left. }
  split. { intros w g H. unfold run_single in H. rewrite full_run_hand, !elem_of_cons, elem_of_nil in H. destruct H as [[= _ ->]|[[= _ ->]|[]]]; reflexivity. }
  exact (all_black_sound _ run_single_ok).
Qed.

(** ** One accusation at one gossiper, and its fragment once more *)
Definition twice : gobj :=
  let '(mkobj x p t s ss s0 _ ti sc p0 p1 p2) := fragment_by (net_conf 2 10000 false "g1" 1) acc_ca in mkobj x p t s ss s0 "x" ti sc p0 p1 p2.
Definition run_twice : list nevent := [NHand "g1" acc_ca; NHand "g1" twice].
Definition g1_black (N : net) : bool := match nt_nodes N !! "g1" with Some y => bool_decide (log1 ∈ t_black (s_st y)) && bool_decide (t_con_init (s_st y) = ∅) | None => false end.
Lemma run_twice_ok : g1_black (net_run plain3 (net_init plain3 "07" "s" "t") run_twice) = true.
Proof. vm_compute. reflexivity. Qed.

Lemma twice_refuted : exists (P : prims) (cfgs : gmap string (gconf P)) T p sec st e a u c g y,
  honest_network cfgs T /\ 1 < T /\ accusations cfgs e p [a] /\ cfgs !! u = Some c /\ relabelled (fragment_by c a) g /\
  nt_nodes (net_run cfgs (net_init cfgs p sec st) [NHand u a; NHand u g]) !! u = Some y /\ e ∈ t_black (s_st y).
Proof.
  pose proof run_twice_ok as H. unfold g1_black in H.
  destruct (nt_nodes (net_run plain3 (net_init plain3 "07" "s" "t") run_twice) !! "g1") as [y|] eqn:Ey; [|discriminate H].
  apply andb_true_iff in H as [H _]. apply bool_decide_eq_true in H.
  exists toy, plain3, 2, "07", "s", "t", log1, acc_ca, "g1", (net_conf 2 10000 false "g1" 1), twice, y.
  split; [apply three_honest; lia|]. split; [lia|]. split.
  { pose proof plain3_accusations as [H1 H2 H3 H4]. split; [exact H1| | |].
    - intros a Ha. apply H2. apply elem_of_list_singleton in Ha as ->. by left.
    - intros a b Ha Hb. apply elem_of_list_singleton in Ha as ->. apply elem_of_list_singleton in Hb as ->. split_and!; reflexivity.
    - intros a u c Ha. apply H4. apply elem_of_list_singleton in Ha as ->. by left. }
  split; [reflexivity|]. split; [exists "x"; reflexivity|]. split; [exact Ey|exact H].
Qed.

Lemma run_acc_black : honest_network plain3 2 /\ accusations plain3 log1 "07" [acc_ca; acc_lg] /\
  undisturbed log1 [acc_ca; acc_lg] run_acc /\
  forall w y, nt_nodes (net_run plain3 (net_init plain3 "07" "s" "t") run_acc) !! w = Some y -> log1 ∈ t_black (s_st y).
Proof.
  destruct run_acc_hypotheses as (H1 & H2 & H3 & _). pose proof run_acc_ok as H. apply andb_true_iff in H as [_ H].
  split; [exact H1|]. split; [exact H2|]. split; [exact H3|]. exact (all_black_sound _ H).
Qed.
