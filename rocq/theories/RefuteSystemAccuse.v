(** Both monitors of the small system accuse the logger: an example of a conviction by accusations in the whole system. *)
From Verif Require Import Bytes Hex Json Types Crypto Verify Bitset Cert CertPool CTngExt Revocation Prog Gossiper Network Overlap System SpecGossiper SpecNetwork SpecOverlap SpecDetect SpecCodec SpecAccuse SpecOverlapAccuse SpecSystem SpecSystemDetect SpecSystemAccuse Clock Toy RefuteGossiper GossiperSeq NetworkNode RefuteNetwork RefuteOverlap RefuteSystem SystemFacts RefuteSystemDetect RefuteOverlapAccuse.
From Verif Require Logger CA Monitor Client SpecClient.
From Verif Require Import RefuteLogger RefuteCA.
From Coq Require Import Lia.
Open Scope string_scope.

Definition accusation_1 : gobj := Eval vm_compute in Monitor.accusation (sys_mon "m1" "km1") 0 "t" lg.
Definition accusation_2 : gobj := Eval vm_compute in Monitor.accusation (sys_mon "m2" "km2") 0 "t" lg.

Lemma two_honest : honest_network (sy_gossipers toy_sys) 2.
Proof.
  split.
  - intros u c H. apply two_gossipers in H as [[-> ->]|[-> ->]]; split; reflexivity.
  - intros u c H. apply two_gossipers in H as [[-> ->]|[-> ->]]; reflexivity.
  - intros u c H. apply two_gossipers in H as [[-> ->]|[-> ->]]; reflexivity.
  - intros u c H v. rewrite two_known. apply two_gossipers in H as [[-> ->]|[-> ->]]; cbn [gc_neighbours]; rewrite elem_of_list_singleton; (split; [intros ->; split; [done|auto]|]); intros [Hn [-> | ->]]; done.
  - intros u c v d Hc Hd. assert (cc_bls_pubs (gc_crypto c) = toy_bls) as -> by (apply two_gossipers in Hc as [[-> ->]|[-> ->]]; reflexivity).
    apply two_gossipers in Hd as [[-> ->]|[-> ->]]; eexists; (split; [reflexivity|]); intros m; apply Z.eqb_refl.
  - cbn [toy_sys sy_gossipers]. rewrite !map_size_insert_None, map_size_singleton by reflexivity. lia.
Qed.

Lemma two_accusations : accusations (sy_gossipers toy_sys) lg "00" [accusation_1; accusation_2].
Proof.
  split.
  - discriminate.
  - intros a Ha. rewrite !elem_of_cons, elem_of_nil in Ha. destruct Ha as [->|[->|[]]]; split_and!; reflexivity.
  - intros a b Ha Hb. rewrite !elem_of_cons, elem_of_nil in Ha, Hb. destruct Ha as [->|[->|[]]], Hb as [->|[->|[]]]; split_and!; reflexivity.
  - intros a u c Ha Hc. rewrite !elem_of_cons, elem_of_nil in Ha. apply two_gossipers in Hc.
    destruct Ha as [->|[->|[]]], Hc as [[-> ->]|[-> ->]]; vm_compute; reflexivity.
Qed.

(** The timer of a monitor that fires at place [k] of the history sends [a]. *)
Definition fired_at (k : nat) (mon : string) (a : gobj) (l : list wevent) : bool :=
  match l !! k, sy_monitors toy_sys !! mon, w_mons (sys_run (start "00") (take k l)) !! mon with
  | Some (EMonitor mon' (Monitor.MFire n m stamp)), Some (c, _), Some s =>
      String.eqb mon mon' &&
      match Monitor.mstep toy_z c s (Monitor.MFire n m stamp) with
      | Some (_, [Monitor.MSend g]) => bool_decide (g = a)
      | _ => false
      end
  | _, _, _ => false
  end.
Lemma fired_at_sound k mon a l c u : sy_monitors toy_sys !! mon = Some (c, u) -> fired_at k mon a l = true -> timer_sends toy_z toy_x toy_sys (start "00") l mon u a.
Proof.
  intros Hc H. unfold fired_at in H. rewrite Hc in H. destruct (l !! k) as [ev|] eqn:El; [|done].
  destruct ev as [| | | | | | | | | | |mon' e|]; try done. destruct e as [| | | |n m stamp| | |]; try done.
  destruct (w_mons _ !! mon) as [s|] eqn:Es; [|done]. apply andb_true_iff in H as [H1 H2]. apply String.eqb_eq in H1 as <-.
  destruct (Monitor.mstep _ _ _ _) as [[s' o]|] eqn:Em; [|done]. destruct o as [|[] [|]]; try done. apply bool_decide_eq_true in H2 as ->.
  exists (take k l), n, m, stamp, (drop (Datatypes.S k) l), c, s, s', [Monitor.MSend a].
  split; [symmetry; by apply take_drop_middle|]. split_and!; auto. by left.
Qed.

Definition distinct_in (W : world) (v e : string) : bool := match on_nodes (w_net W) !! v with Some y => bool_decide (NoDup (accusation_signers "00" e (p_st y))) | None => true end.
Lemma distinct_in_sound W v e : distinct_in W v e = true -> forall y, on_nodes (w_net W) !! v = Some y -> NoDup (accusation_signers "00" e (p_st y)).
Proof. unfold distinct_in. intros H y Hy. rewrite Hy in H. by apply bool_decide_eq_true in H. Qed.

Lemma bad3_ok : is_oquiet (w_net (sys_run (start "00") bad3)) && lossless bad3 && bool_decide (given (arrivals (start "00") bad3) = [("g1", accusation_1); ("g2", accusation_2)]) &&
  is_nil (w_mail (sys_run (start "00") bad3)) && fired_at 13 "m1" accusation_1 bad3 && fired_at 14 "m2" accusation_2 bad3 &&
  distinct_in (sys_run (start "00") bad3) "g1" lg && distinct_in (sys_run (start "00") bad3) "g2" lg = true.
Proof. vm_compute. reflexivity. Qed.

Lemma bad3_given w g : bool_decide (given (arrivals (start "00") bad3) = [("g1", accusation_1); ("g2", accusation_2)]) = true ->
  arrives toy_z toy_x toy_sys (start "00") bad3 (ToGossip w g) -> g ∈ [accusation_1; accusation_2].
Proof.
  intros E%bool_decide_eq_true H%arrivals_sound.
  assert ((w, g) ∈ given (arrivals (start "00") bad3)) as Hg by (unfold given; apply elem_of_list_omap; exists (ToGossip w g); split; [exact H|reflexivity]).
  rewrite E in Hg. rewrite !elem_of_cons, elem_of_nil in Hg. destruct Hg as [Hg|[Hg|[]]]; injection Hg as _ ->; [by left|right; by left].
Qed.

Lemma quiet_run (W : world) l : lossless l = true -> is_nil (w_mail (sys_run W l)) = true ->
  one_period l /\ messages_arrived toy_z toy_x toy_sys W l /\ reports_arrived toy_z toy_x toy_sys W l /\ (forall mon m, EMonitor mon (Monitor.MWipe m) ∉ l).
Proof.
  intros Hl Hm. unfold lossless in Hl. rewrite forallb_forall in Hl.
  assert (forall v, v ∉ w_mail (sys_run W l) /\ ~ loses toy_z toy_x toy_sys W l v) as X.
  { intros v. split; [exact (nil_none _ _ Hm)|].
    intros (l1 & i & l2 & E & _). assert (In (ELose i) l) as Hin by (rewrite E; apply in_or_app; right; by left). apply Hl in Hin. discriminate. }
  split_and!.
  - intros ev Hev. apply elem_of_list_In, Hl in Hev. by destruct ev.
  - intros u g. apply X.
  - intros u g. apply X.
  - intros mon m Hin. apply elem_of_list_In, Hl in Hin. discriminate.
Qed.

Lemma bad3_hypotheses : honest_network (sy_gossipers toy_sys) 2 /\ accusations (sy_gossipers toy_sys) lg "00" [accusation_1; accusation_2] /\ one_period bad3 /\
  undisturbed_accusations toy_z toy_x toy_sys (start "00") lg [accusation_1; accusation_2] bad3 /\ oquiescent (w_net (sys_run (start "00") bad3)) /\
  messages_arrived toy_z toy_x toy_sys (start "00") bad3 /\ reports_arrived toy_z toy_x toy_sys (start "00") bad3 /\
  (forall u, u ∈ ["g1"; "g2"] -> is_Some (sy_gossipers toy_sys !! u) /\ exists mon a, a ∈ [accusation_1; accusation_2] /\ timer_sends toy_z toy_x toy_sys (start "00") bad3 mon u a) /\
  (forall u y, u ∈ ["g1"; "g2"] -> on_nodes (w_net (sys_run (start "00") bad3)) !! u = Some y -> NoDup (accusation_signers "00" lg (p_st y))) /\
  (forall mon m, EMonitor mon (Monitor.MWipe m) ∉ bad3).
Proof.
  pose proof bad3_ok as H. apply andb_true_iff in H as [H H8]. apply andb_true_iff in H as [H H7]. apply andb_true_iff in H as [H H6]. apply andb_true_iff in H as [H H5].
  apply andb_true_iff in H as [H H4]. apply andb_true_iff in H as [H H3]. apply andb_true_iff in H as [H1 H2].
  destruct (quiet_run _ _ H2 H4) as (Q1 & Q2 & Q3 & Q4).
  split; [exact two_honest|]. split; [exact two_accusations|]. split; [exact Q1|]. split.
  { intros u g Hg _. left. exact (bad3_given u g H3 Hg). }
  split; [exact (is_oquiet_sound _ H1)|]. split; [exact Q2|]. split; [exact Q3|]. split; [|split; [|exact Q4]].
  - intros u Hu. rewrite !elem_of_cons, elem_of_nil in Hu. destruct Hu as [->|[->|[]]]; (split; [apply two_known; auto|]).
    + exists "m1", accusation_1. split; [by left|]. exact (fired_at_sound 13 "m1" _ _ _ _ eq_refl H5).
    + exists "m2", accusation_2. split; [right; by left|]. exact (fired_at_sound 14 "m2" _ _ _ _ eq_refl H6).
  - intros u y Hu. rewrite !elem_of_cons, elem_of_nil in Hu. destruct Hu as [->|[->|[]]]; [exact (distinct_in_sound _ _ _ H7 y)|exact (distinct_in_sound _ _ _ H8 y)].
Qed.

(** In the end the client has convicted the logger. *)
Lemma bad3_client : exists s, w_clients (sys_run (start "00") (bad3 ++ period_end_and_load "m2" 0 "c1" "Period_0" true)) !! "c1" = Some s /\
  SpecClient.idle s /\ SpecClient.convicted s lg.
Proof. vm_compute. eexists. split; [reflexivity|]. split_and!; eauto. Qed.
