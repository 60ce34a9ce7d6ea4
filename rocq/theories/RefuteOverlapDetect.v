(** Conflicting statements and overlapping handlers: an example, and a race
    in which nobody notices the conflict. *)
From Verif Require Import Bytes Hex Json Types Crypto Verify Prog Gossiper Network Overlap SpecCodec SpecVerify SpecGossiper SpecNetwork SpecOverlap SpecDetect SpecOverlapDetect Toy ToyFacts ProgFacts GossiperSeq RefuteGossiper NetworkNode RefuteNetwork RefuteOverlap RefuteDetect.
Open Scope string_scope.

Definition o_none (N : onet) : bool := forallb (λ uy : string * gpool, bool_decide (t_black (p_st uy.2) = ∅)) (map_to_list (on_nodes N)).
Lemma o_none_sound N : o_none N = true -> forall w (y : gpool), on_nodes N !! w = Some y -> t_black (p_st y) = ∅.
Proof.
  unfold o_none. rewrite forallb_forall. intros H w y Hw. specialize (H (w, y)). cbn in H.
  apply bool_decide_eq_true in H; [done|]. apply elem_of_list_In, elem_of_map_to_list, Hw.
Qed.

Definition hands_among (L : list (string * gobj)) (l : list oevent) : bool :=
  forallb (λ e, match e with OHand w g => bool_decide ((w, g) ∈ L) | _ => true end) l.
Lemma hands_among_sound L l : hands_among L l = true -> forall w g, OHand w g ∈ l -> (w, g) ∈ L.
Proof.
  unfold hands_among. rewrite forallb_forall. intros H w g Hw. specialize (H (OHand w g)). cbn in H.
  apply bool_decide_eq_true in H; [done|]. by apply elem_of_list_In.
Qed.

(** Every gossiper has looked for a version of the second statement, found none, and is about
    to store it; then the first statement is stored and gossiped everywhere; then the
    handlers go on and overwrite it. *)
Definition arm u : list oevent := OHand u sth_b :: repeat (ORun u 0) 5.
Definition armed : list oevent := (arm "g1" ++ arm "g2" ++ arm "g3" ++ [OHand "g1" sth_a])%list.
Fixpoint around (cfgs : gmap string (gconf toy)) (n : nat) (N : onet) : list oevent :=
  match n with
  | 0 => []
  | S n =>
      let go e := e :: around cfgs n (onet_step cfgs N e) in
      match busy N (λ y, Nat.ltb 1 (length (p_threads y))) with
      | Some u => go (ORun u 1)
      | None => match on_flight N with _ :: _ => go (ODeliver 0) | [] => [] end
      end
  end.
Definition run_race : list oevent := Eval vm_compute in
  let l := (armed ++ around plain3 400 (onet_run plain3 o_plain armed))%list in
  (l ++ odrain plain3 true 900 (onet_run plain3 o_plain l))%list.
Definition race_hands : list (string * gobj) := [("g1", sth_b); ("g2", sth_b); ("g3", sth_b); ("g1", sth_a)].

Lemma run_race_ok : is_oquiet (onet_run plain3 o_plain run_race) && o_none (onet_run plain3 o_plain run_race) = true.
Proof. vm_compute. reflexivity. Qed.
Lemma run_race_hands : hands_among race_hands run_race = true /\ run_race !! 18 = Some (OHand "g1" sth_a) /\ run_race !! 0 = Some (OHand "g1" sth_b).
Proof. vm_compute. split; [reflexivity|split; reflexivity]. Qed.

Lemma race_refuted : exists (P : prims) (cfgs : gmap string (gconf P)) p sec st a b l,
  connected cfgs /\ equivocation cfgs a b /\ (forall w g, OHand w g ∈ l -> g = a \/ g = b) /\
  (exists u, OHand u a ∈ l /\ is_Some (cfgs !! u)) /\ (exists v, OHand v b ∈ l /\ is_Some (cfgs !! v)) /\
  let N := onet_run cfgs (onet_init cfgs p sec st) l in
  oquiescent N /\ forall w (y : gpool), on_nodes N !! w = Some y -> t_black (p_st y) = ∅.
Proof.
  exists toy, plain3, "07", "s", "t", sth_a, sth_b, run_race.
  pose proof run_race_ok as H. apply andb_true_iff in H as [H1 H2].
  pose proof run_race_hands as (G1 & G2 & G3).
  assert (is_Some (plain3 !! "g1")) as Hk by (apply three_known; rewrite !elem_of_cons; auto).
  split; [apply three_connected; repeat constructor|]. split; [apply ab_equivocation|].
  split; [|split; [exists "g1"; split; [exact (elem_of_list_lookup_2 _ _ _ G2)|exact Hk]|split; [exists "g1"; split; [exact (elem_of_list_lookup_2 _ _ _ G3)|exact Hk]|]]].
  - intros w g Hg. apply (hands_among_sound _ _ G1) in Hg. revert Hg. unfold race_hands. rewrite !elem_of_cons, elem_of_nil. intros [E|[E|[E|[E|[]]]]]; injection E as _ E2; auto.
  - exact (conj (is_oquiet_sound _ H1) (o_none_sound _ H2)).
Qed.

(** Different gossipers are told different things, and their handlers overlap. *)
Definition split_hands : list oevent := [OHand "g1" sth_a; OHand "g2" sth_b; ORun "g1" 0; ORun "g2" 0; ORun "g1" 0; ORun "g2" 0].
Definition run_split : list oevent := Eval vm_compute in (split_hands ++ odrain plain3 true 900 (onet_run plain3 o_plain split_hands))%list.
Definition ab_hands : list (string * gobj) := [("g1", sth_a); ("g2", sth_b)].
Lemma run_split_ok : is_oquiet (onet_run plain3 o_plain run_split) && hands_among ab_hands run_split = true /\
  run_split !! 0 = Some (OHand "g1" sth_a) /\ run_split !! 1 = Some (OHand "g2" sth_b).
Proof. vm_compute. split; [reflexivity|split; reflexivity]. Qed.

Lemma ab_harmless g : g = sth_a \/ g = sth_b -> harmless plain3 sth_a g.
Proof.
  intros [-> | ->] _; (split; [rewrite !not_elem_of_cons; split_and!; try discriminate; apply not_elem_of_nil|]); intros _; (split; [reflexivity|discriminate]).
Qed.

Lemma split_hypotheses : connected plain3 /\ equivocation plain3 sth_a sth_b /\
  (forall w g, OHand w g ∈ run_split -> harmless plain3 sth_a g) /\ one_version sth_a run_split /\
  OHand "g1" sth_a ∈ run_split /\ OHand "g2" sth_b ∈ run_split /\ is_Some (plain3 !! "g1") /\ is_Some (plain3 !! "g2") /\
  oquiescent (onet_run plain3 (onet_init plain3 "07" "s" "t") run_split).
Proof.
  pose proof run_split_ok as (H & H3 & H4). apply andb_true_iff in H as [H1 H2].
  assert (forall w g, OHand w g ∈ run_split -> (w = "g1" /\ g = sth_a) \/ (w = "g2" /\ g = sth_b)) as Hh.
  { intros w g Hg. apply (hands_among_sound _ _ H2) in Hg. revert Hg. unfold ab_hands. rewrite !elem_of_cons, elem_of_nil. intros [E|[E|[]]]; injection E as E1 E2; auto. }
  split; [apply three_connected; repeat constructor|]. split; [apply ab_equivocation|].
  split; [intros w g Hg; apply ab_harmless; destruct (Hh w g Hg) as [[_ E]|[_ E]]; auto|].
  split.
  { intros u g h Hg Hk _ _. destruct (Hh u g Hg) as [[E1 ->]|[E1 ->]], (Hh u h Hk) as [[E2 ->]|[E2 ->]]; try reflexivity; rewrite E1 in E2; discriminate. }
  split; [exact (elem_of_list_lookup_2 _ _ _ H3)|]. split; [exact (elem_of_list_lookup_2 _ _ _ H4)|].
  split; [apply three_known; rewrite !elem_of_cons; auto|]. split; [apply three_known; rewrite !elem_of_cons; auto|].
  exact (is_oquiet_sound _ H1).
Qed.
