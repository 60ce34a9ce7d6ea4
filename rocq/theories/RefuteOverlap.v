(** Example runs of networks with overlapping handlers, and counterexamples. *)
From Verif Require Import Bytes Hex Json Types Crypto Verify Prog Gossiper Network Overlap SpecCodec SpecVerify SpecGossiper SpecNetwork SpecOverlap Toy ToyFacts ProgFacts GossiperSeq RefuteGossiper NetworkNode RefuteNetwork.
Open Scope string_scope.

Definition busy (N : onet) (f : gpool -> bool) : option string :=
  match List.filter (λ uy : string * gpool, f uy.2) (map_to_list (on_nodes N)) with (u, _) :: _ => Some u | [] => None end.

(** Let every goroutine finish and deliver every post; then, if [tasks], fire the timers. *)
Fixpoint odrain (cfgs : gmap string (gconf toy)) (tasks : bool) (n : nat) (N : onet) : list oevent :=
  match n with
  | 0 => []
  | S n =>
      let go e := e :: odrain cfgs tasks n (onet_step cfgs N e) in
      match busy N (λ y, negb (is_nil (p_threads y))) with
      | Some u => go (ORun u 0)
      | None =>
          match on_flight N with
          | _ :: _ => go (ODeliver 0)
          | [] => match (if tasks then busy N (λ y, negb (is_nil (p_tasks y))) else None) with Some u => go (OStart u 0) | None => [] end
          end
      end
  end.

Lemma odrain_allowed cfgs p Gs b n N : Forall (oallowed p Gs) (odrain cfgs b n N).
Proof.
  revert N. induction n as [|n IH]; intros N; [constructor|]. cbn [odrain]. cbn zeta. destruct (busy N _); [constructor; [exact I|apply IH]|].
  destruct (on_flight N); [|constructor; [exact I|apply IH]]. destruct (if b then _ else _); [|constructor]. constructor; [exact I|apply IH].
Qed.

Definition is_oquiet (N : onet) : bool :=
  is_nil (on_flight N) && forallb (λ uy : string * gpool, is_nil (p_threads uy.2) && is_nil (p_tasks uy.2)) (map_to_list (on_nodes N)).

Lemma is_oquiet_sound N : is_oquiet N = true -> oquiescent N.
Proof.
  unfold is_oquiet. rewrite andb_true_iff, forallb_forall. intros [H1 H2]. split; [by destruct (on_flight N)|].
  intros u y Hy. specialize (H2 (u, y)). cbn in H2. destruct (p_threads y), (p_tasks y); [done| | |]; exfalso;
  (assert (false = true); [|done]; apply H2; apply elem_of_list_In; by apply elem_of_map_to_list).
Qed.

(* ---------------------------------------------------------------- *)
(** * A run in which nothing is stored twice *)
Definition o_plain := onet_init plain3 "07" "s" "t".
Definition hands : list oevent := [OHand "g1" sth_a; OHand "g2" rev_a].
Definition orun_plain : list oevent := (hands ++ odrain plain3 true 600 (onet_run plain3 o_plain hands))%list.

Definition single (N : onet) (g : gobj) : bool :=
  forallb (λ uy : string * gpool, bool_decide (NoDup (map g_signer (fragments_held "07" (p_st uy.2) g)))) (map_to_list (on_nodes N)).

Lemma single_sound N g : single N g = true -> forall w (x : gpool), on_nodes N !! w = Some x -> NoDup (fragments_held "07" (p_st x) g).
Proof.
  unfold single. rewrite forallb_forall. intros H w x Hx. specialize (H (w, x)). cbn [fst snd] in H.
  rewrite bool_decide_eq_true in H. rewrite NoDup_ListNoDup. apply NoDup_map_inv with (f := g_signer), NoDup_ListNoDup, H.
  apply elem_of_list_In. by apply elem_of_map_to_list.
Qed.

Lemma orun_plain_ok : is_oquiet (onet_run plain3 o_plain orun_plain) && single (onet_run plain3 o_plain orun_plain) sth_a
  && single (onet_run plain3 o_plain orun_plain) rev_a && Nat.eqb (oeffective_steps plain3 o_plain orun_plain) 42 = true.
Proof. vm_compute. reflexivity. Qed.

Lemma orun_plain_facts : Forall (oallowed "07" [sth_a; rev_a]) orun_plain /\ oquiescent (onet_run plain3 (onet_init plain3 "07" "s" "t") orun_plain) /\
  OHand "g1" sth_a ∈ orun_plain /\ OHand "g2" rev_a ∈ orun_plain /\
  (forall g, g ∈ [sth_a; rev_a] -> forall w (x : gpool), on_nodes (onet_run plain3 (onet_init plain3 "07" "s" "t") orun_plain) !! w = Some x ->
     NoDup (fragments_held "07" (p_st x) g)) /\
  oeffective_steps plain3 (onet_init plain3 "07" "s" "t") orun_plain = 42.
Proof.
  pose proof orun_plain_ok as H. apply andb_true_iff in H as [H H4]. apply andb_true_iff in H as [H H3]. apply andb_true_iff in H as [H1 H2]. split.
  { apply Forall_app. split; [|apply odrain_allowed]. repeat constructor; cbn; rewrite !elem_of_cons; auto. }
  split; [exact (is_oquiet_sound _ H1)|]. split; [apply elem_of_app; left; apply elem_of_list_here|]. split; [apply elem_of_app; left; apply elem_of_list_further, elem_of_list_here|].
  split; [|exact (proj1 (Nat.eqb_eq _ _) H4)]. intros g Hg. rewrite !elem_of_cons, elem_of_nil in Hg. destruct Hg as [->|[->|[]]]; [exact (single_sound _ _ H2)|exact (single_sound _ _ H3)].
Qed.

(* ---------------------------------------------------------------- *)
(** * A run that ends without an aggregate at two of three gossipers *)
Definition all3 := three 3 10000 false.
Definition o_init := onet_init all3 "07" "s" "t".
Definition pre : list oevent := [OHand "g2" sth_a].
Definition pre1 : list oevent := (pre ++ odrain all3 false 200 (onet_run all3 o_init pre))%list.
(** g1 is sent the fragment of g2 by g2 and by g3, and the two handlers both
    find it missing before either stores it. *)
Definition mid : list oevent :=
  (OStart "g2" 0 :: repeat (ORun "g2" 0) 20 ++ ODeliver 1 :: repeat (ORun "g3" 0) 20 ++
   [ODeliver 0; ODeliver 0; ORun "g1" 0; ORun "g1" 0; ORun "g1" 1; ORun "g1" 1] ++ repeat (ORun "g1" 0) 30)%list.
Definition fin : list oevent := (pre1 ++ mid ++ [OStart "g3" 0])%list.
Definition run_dup : list oevent := (fin ++ odrain all3 true 400 (onet_run all3 o_init fin))%list.

Definition olacks (N : onet) (u : string) : bool :=
  match on_nodes N !! u with Some y => Nat.eqb (size (t_sth_full (p_st y))) 0 | None => false end.
Lemma olacks_sound N u : olacks N u = true -> exists y : gpool, on_nodes N !! u = Some y /\ t_sth_full (p_st y) = ∅.
Proof. unfold olacks. destruct (on_nodes N !! u) as [y|]; [|done]. intros H%Nat.eqb_eq. exists y. split; [done|]. by apply map_size_empty_inv. Qed.

Lemma run_dup_ok : is_oquiet (onet_run all3 o_init run_dup) && olacks (onet_run all3 o_init run_dup) "g2" && olacks (onet_run all3 o_init run_dup) "g3"
  && Nat.ltb (oeffective_steps all3 o_init run_dup) (statement_traffic 3 3) = true.
Proof. vm_compute. reflexivity. Qed.

Lemma all3_valid : valid_statements all3 "07" [sth_a].
Proof.
  split.
  - intros g Hg. rewrite elem_of_list_singleton in Hg. subst g. repeat split; auto. by left.
  - intros g u c Hg Hc. rewrite elem_of_list_singleton in Hg. subst g. apply three_cases in Hc as [[-> ->]|[[-> ->]|[-> ->]]]; vm_compute; reflexivity.
  - intros g h Hg Hh. rewrite elem_of_list_singleton in Hg, Hh. by subst.
  - intros g u c v d Hg Ht. rewrite elem_of_list_singleton in Hg. by subst g.
Qed.

Lemma all3_neighbours u c : all3 !! u = Some c -> NoDup (gc_neighbours c).
Proof. intros Hc. apply three_cases in Hc as [[-> ->]|[[-> ->]|[-> ->]]]; cbn; repeat constructor; rewrite ?elem_of_cons, ?elem_of_nil; naive_solver. Qed.

Lemma run_dup_allowed : Forall (oallowed "07" [sth_a]) run_dup.
Proof.
  unfold run_dup. apply Forall_app. split; [|apply odrain_allowed]. unfold fin. apply Forall_app. split.
  - unfold pre1. apply Forall_app. split; [|apply odrain_allowed]. constructor; [by left|constructor].
  - apply Forall_forall. intros e He. assert (existsb (λ e, match e with OHand _ _ | OTick _ _ _ _ => true | _ => false end) (mid ++ [OStart "g3" 0])%list = false) as H by reflexivity.
    destruct e; cbn; try exact I; exfalso; (assert (true = false); [|done]); rewrite <- H; symmetry; apply existsb_exists; eexists; (split; [apply elem_of_list_In, He|reflexivity]).
Qed.

Lemma overlap_refuted : exists (P : prims) (cfgs : gmap string (gconf P)) T p (Gs : list gobj) sec st l u g v (y : gpool),
  honest_network cfgs T /\ valid_statements cfgs p Gs /\
  agg_correct P /\ fast_perm P /\ (forall sg : bls_sig P, bls_deser (bls_ser sg) = Some sg) /\
  Forall (oallowed p Gs) l /\ oquiescent (onet_run cfgs (onet_init cfgs p sec st) l) /\
  OHand u g ∈ l /\ is_Some (cfgs !! u) /\ g_type g = STH_INIT /\
  on_nodes (onet_run cfgs (onet_init cfgs p sec st) l) !! v = Some y /\ t_sth_full (p_st y) = ∅.
Proof.
  pose proof run_dup_ok as H. apply andb_true_iff in H as [H _]. apply andb_true_iff in H as [H _]. apply andb_true_iff in H as [H1 H2]. apply olacks_sound in H2 as (y & Hy & Hy').
  exists toy, all3, 3, "07", [sth_a], "s", "t", run_dup, "g2", sth_a, "g2", y. split; [apply three_honest; lia|].
  split; [apply all3_valid|]. split; [apply toy_agg|]. split; [apply toy_perm|]. split; [apply toy_deser|]. split; [apply run_dup_allowed|].
  split; [exact (is_oquiet_sound _ H1)|]. split; [by left|]. split; [apply three_known; rewrite !elem_of_cons; auto|]. split; [reflexivity|]. split; [exact Hy|exact Hy'].
Qed.

Lemma overlap_traffic_refuted : exists (P : prims) (cfgs : gmap string (gconf P)) T p (Gs : list gobj) sec st l,
  honest_network cfgs T /\ valid_statements cfgs p Gs /\
  agg_correct P /\ fast_perm P /\ (forall sg : bls_sig P, bls_deser (bls_ser sg) = Some sg) /\
  (forall u c, cfgs !! u = Some c -> NoDup (gc_neighbours c)) /\ NoDup Gs /\
  Forall (oallowed p Gs) l /\ oquiescent (onet_run cfgs (onet_init cfgs p sec st) l) /\
  (forall g, g ∈ Gs -> exists u, is_Some (cfgs !! u) /\ OHand u g ∈ l) /\
  oeffective_steps cfgs (onet_init cfgs p sec st) l < length Gs * statement_traffic (size cfgs) T.
Proof.
  pose proof run_dup_ok as H. apply andb_true_iff in H as [H H4]. apply andb_true_iff in H as [H _]. apply andb_true_iff in H as [H1 _].
  exists toy, all3, 3, "07", [sth_a], "s", "t", run_dup. split; [apply three_honest; lia|].
  split; [apply all3_valid|]. split; [apply toy_agg|]. split; [apply toy_perm|]. split; [apply toy_deser|]. split; [apply all3_neighbours|].
  split; [apply NoDup_singleton|]. split; [apply run_dup_allowed|].
  split; [exact (is_oquiet_sound _ H1)|]. split.
  { intros g Hg. rewrite elem_of_list_singleton in Hg. subst g. exists "g2". split; [apply three_known; rewrite !elem_of_cons; auto|]. by left. }
  apply Nat.ltb_lt in H4. replace (size all3) with 3; [cbn [length]; rewrite Nat.mul_1_l; exact H4|].
  unfold all3, three. by rewrite !map_size_insert_None, map_size_singleton by reflexivity.
Qed.
