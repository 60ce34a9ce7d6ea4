(** Detection of conflicting statements: an example, and how it is
    evaded. *)
From Verif Require Import Bytes Hex Json Types Crypto Verify Prog Gossiper Network SpecCodec SpecVerify SpecGossiper SpecNetwork SpecDetect Toy ToyFacts ProgFacts GossiperSeq RefuteGossiper NetworkNode RefuteNetwork.
From Coq Require Import Lia.
Open Scope string_scope.

Lemma three_connected T lim opt : 0 < T <= 3 -> connected (three T lim opt).
Proof.
  intros HT. pose proof (three_honest T lim opt HT) as H. split.
  - apply (hn_connected _ _ H).
  - intros u c v d Hc Hd. apply three_cases in Hc, Hd. destruct Hc as [[-> ->]|[[-> ->]|[-> ->]]], Hd as [[-> ->]|[[-> ->]|[-> ->]]]; split; reflexivity.
  - intros u c Hc. rewrite (hn_threshold _ _ H u c Hc). lia.
Qed.

Lemma ab_equivocation T lim opt : equivocation (three T lim opt) sth_a sth_b.
Proof.
  split.
  - by left.
  - reflexivity.
  - split; [reflexivity|discriminate].
  - intros H. apply (f_equal fst) in H. vm_compute in H. discriminate.
  - intros u c Hc. apply three_cases in Hc as [[-> ->]|[[-> ->]|[-> ->]]]; split; vm_compute; reflexivity.
Qed.

(** Both versions are handed to gossipers; everything is delivered. *)
Definition run_ab : list nevent := full_run plain3 [NHand "g1" sth_a; NHand "g2" sth_b].

Definition all_black (N : net) : bool := forallb (λ uy : string * gsys, bool_decide (log1 ∈ t_black (s_st uy.2))) (map_to_list (nt_nodes N)).
Definition none_black (N : net) : bool := forallb (λ uy : string * gsys, bool_decide (t_black (s_st uy.2) = ∅)) (map_to_list (nt_nodes N)).

Lemma run_ab_ok : is_quiet (net_run plain3 (net_init plain3 "07" "s" "t") run_ab) && all_black (net_run plain3 (net_init plain3 "07" "s" "t") run_ab) = true.
Proof. vm_compute. reflexivity. Qed.

(** [sth_a] with another signer field, which no signature covers, and a
    space after the text of the signature. *)
Definition sth_a' : gobj :=
  let '(mkobj x p t _ ss s0 s1 ti sc p0 p1 p2) := sth_a in mkobj x p t "x" ss (s0 ++ " ") s1 ti sc p0 p1 p2.

Definition pre_a : list nevent := full_run plain3 [NHand "g1" sth_a].
Definition run_hide : list nevent := full_run plain3 (full_run plain3 (pre_a ++ [NHand "g1" sth_a']) ++ [NHand "g2" sth_b]).
Lemma run_hide_ok : is_quiet (net_run plain3 (net_init plain3 "07" "s" "t") run_hide) && none_black (net_run plain3 (net_init plain3 "07" "s" "t") run_hide) = true.
Proof. vm_compute. reflexivity. Qed.

Lemma drain_no_hand cfgs n N w g : NHand w g ∉ drain cfgs n N.
Proof.
  intros H. pose proof (drain_allowed cfgs "" [] n N) as F. rewrite Forall_forall in F.
  specialize (F _ H). cbn in F. by apply elem_of_nil in F.
Qed.

Lemma full_run_hand cfgs l w g : NHand w g ∈ full_run cfgs l <-> NHand w g ∈ l.
Proof.
  unfold full_run. rewrite elem_of_app. split; [|by left]. intros [H|H]; [done|by apply drain_no_hand in H].
Qed.

Lemma run_hide_hands w g : NHand w g ∈ run_hide <-> (w = "g1" /\ g = sth_a) \/ (w = "g1" /\ g = sth_a') \/ (w = "g2" /\ g = sth_b).
Proof.
  unfold run_hide. rewrite full_run_hand, elem_of_app, full_run_hand, elem_of_app. unfold pre_a. rewrite full_run_hand, !elem_of_list_singleton. split.
  - intros [[[= -> ->]|[= -> ->]]|[= -> ->]]; tauto.
  - intros [[-> ->]|[[-> ->]|[-> ->]]]; tauto.
Qed.

Lemma run_ab_hands w g : NHand w g ∈ run_ab <-> (w = "g1" /\ g = sth_a) \/ (w = "g2" /\ g = sth_b).
Proof.
  unfold run_ab. rewrite full_run_hand, elem_of_cons, elem_of_list_singleton. split.
  - intros [[= -> ->]|[= -> ->]]; tauto.
  - intros [[-> ->]|[-> ->]]; tauto.
Qed.

Lemma none_black_sound N : none_black N = true -> forall w y, nt_nodes N !! w = Some y -> t_black (s_st y) = ∅.
Proof.
  unfold none_black. rewrite forallb_forall. intros H w y Hw. specialize (H (w, y)). cbn in H.
  apply bool_decide_eq_true in H; [done|]. apply elem_of_list_In, elem_of_map_to_list, Hw.
Qed.

Lemma hidden_refuted : exists (P : prims) (cfgs : gmap string (gconf P)) p sec st a b l,
  connected cfgs /\ equivocation cfgs a b /\
  (forall w g, NHand w g ∈ l -> g = a \/ g = b \/ respelled a g) /\
  (exists u, NHand u a ∈ l /\ is_Some (cfgs !! u)) /\ (exists v, NHand v b ∈ l /\ is_Some (cfgs !! v)) /\
  let N := net_run cfgs (net_init cfgs p sec st) l in
  quiescent N /\ forall w y, nt_nodes N !! w = Some y -> t_black (s_st y) = ∅.
Proof.
  exists toy, plain3, "07", "s", "t", sth_a, sth_b, run_hide.
  split; [apply three_connected; lia|]. split; [apply ab_equivocation|].
  split. { intros w g H. apply run_hide_hands in H as [[_ ->]|[[_ ->]|[_ ->]]]; [by left| |by right; left].
    right; right. exists "x", (g_s0 sth_a ++ " "). split; vm_compute; reflexivity. }
  split. { exists "g1". split; [apply run_hide_hands; by left|apply three_known; by left]. }
  split. { exists "g2". split; [apply run_hide_hands; by right; right|apply three_known; by right; left]. }
  pose proof run_hide_ok as H. apply andb_true_iff in H as [H1 H2].
  split; [exact (is_quiet_sound _ H1)|exact (none_black_sound _ H2)].
Qed.

Lemma run_ab_harmless w g : NHand w g ∈ run_ab -> harmless plain3 sth_a g.
Proof.
  intros H. apply run_ab_hands in H as [[_ ->]|[_ ->]]; intros _; (split; [|split; [reflexivity|discriminate]]);
    rewrite !elem_of_cons, elem_of_nil; intros [H|[H|[H|[]]]]; discriminate H.
Qed.

Lemma run_ab_hypotheses : connected plain3 /\ equivocation plain3 sth_a sth_b /\
  (forall w g, NHand w g ∈ run_ab -> harmless plain3 sth_a g) /\
  NHand "g1" sth_a ∈ run_ab /\ NHand "g2" sth_b ∈ run_ab /\
  is_Some (plain3 !! "g1") /\ is_Some (plain3 !! "g2") /\
  nt_flight (net_run plain3 (net_init plain3 "07" "s" "t") run_ab) = [].
Proof.
  split; [apply three_connected; lia|]. split; [apply ab_equivocation|]. split; [apply run_ab_harmless|].
  split; [apply run_ab_hands; by left|]. split; [apply run_ab_hands; by right|].
  split; [apply three_known; by left|]. split; [apply three_known; by right; left|].
  vm_compute. reflexivity.
Qed.
