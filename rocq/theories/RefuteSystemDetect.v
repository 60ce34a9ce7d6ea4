(** A logger of type 1 shows two monitors different tree heads: an example of detection in the whole system. *)
From Verif Require Import Bytes Hex Json Types Crypto Verify Bitset Cert CertPool CTngExt Revocation Prog Gossiper Network Overlap System SpecGossiper SpecOverlap SpecDetect SpecCodec SpecSystem SpecSystemDetect Clock Toy RefuteGossiper GossiperSeq NetworkNode RefuteNetwork RefuteOverlap RefuteSystem SystemFacts.
From Verif Require Logger CA Monitor Client SpecClient.
From Verif Require Import RefuteLogger RefuteCA.
Open Scope string_scope.

(** The logger answers every second query with the other head, from its second period on. *)
Definition split_start : world :=
  world_init toy_x toy_sys "12" "s" "t" (λ _, (1, 2)%Z) (λ _, (0%Z, 0%Z, toy_draw 1 "a", toy_draw 2 "b")).
Definition split_prep : list wevent :=
  [EInject (Query "nobody" Sth lg); EDeliver 0 11; EDeliver 0 11; ELogPeriod lg; EIssue ca [toy_draw 3 "c"; toy_draw 4 "d"]; EDeliver 0 11; EDeliver 0 11;
   EPublish lg (at_min 11) (at_min 11) (at_min 11); EMonitor "m1" (Monitor.MQueryLoggers 12); EMonitor "m2" (Monitor.MQueryLoggers 12)].
Definition split_world : list wevent := Eval vm_compute in settled 12 split_start split_prep.

(** What arrives in a run. *)
Fixpoint arrivals (W : world) (l : list wevent) : list mail :=
  match l with
  | [] => []
  | ev :: r => (match ev with EDeliver i _ => match w_mail W !! i with Some y => [y] | None => [] end | _ => [] end
                ++ arrivals (wstep toy_z toy_x toy_sys W ev) r)%list
  end.
Lemma arrivals_sound l y : forall W, arrives toy_z toy_x toy_sys W l y -> y ∈ arrivals W l.
Proof.
  intros W (l1 & i & m & l2 & -> & H). revert W H. induction l1 as [|a l1 IH]; intros W H; cbn [app arrivals].
  - cbn in H. rewrite H. by left.
  - apply elem_of_app. right. by apply IH.
Qed.
Lemma arrives_at l y i m n W : l !! n = Some (EDeliver i m) -> w_mail (sys_run W (take n l)) !! i = Some y -> arrives toy_z toy_x toy_sys W l y.
Proof. intros H1 H2. exists (take n l), i, m, (drop (S n) l). split; [|done]. symmetry. by apply take_drop_middle. Qed.

Definition lossless (l : list wevent) : bool := forallb (λ ev, match ev with ELose _ | EPost _ | EPeriod _ | EMonitor _ (Monitor.MWipe _) => false | _ => true end) l.


(** The heads the two gossipers are given. *)
Definition told (u : string) : gobj := 
  match omap (λ y, match y with ToGossip v g => if String.eqb v u then Some g else None | _ => None end) (arrivals split_start split_world) with g :: _ => g | [] => zero_obj end.
Definition head_a : gobj := Eval vm_compute in told "g1".
Definition head_b : gobj := Eval vm_compute in told "g2".

Lemma two_gossipers u (c : gconf toy) : sy_gossipers toy_sys !! u = Some c ->
  (u = "g1" /\ c = mkgconf (sys_cc "g1" "" 1) ["g2"] "m1" 2 1 10000 false) \/ (u = "g2" /\ c = mkgconf (sys_cc "g2" "" 10) ["g1"] "m2" 2 1 10000 false).
Proof.
  intros H. cbn [toy_sys sy_gossipers] in H. apply lookup_insert_Some in H as [[<- <-]|[_ H]]; [by left|]. apply lookup_singleton_Some in H as [<- <-]. by right.
Qed.
Lemma two_known u : is_Some (sy_gossipers toy_sys !! u) <-> u = "g1" \/ u = "g2".
Proof. split; [intros [c H]; apply two_gossipers in H; tauto|]. intros [-> | ->]; by eexists. Qed.

Lemma two_connected : connected (sy_gossipers toy_sys).
Proof.
  split.
  - intros u c H v. rewrite two_known. apply two_gossipers in H as [[-> ->]|[-> ->]]; cbn [gc_neighbours]; rewrite elem_of_list_singleton; (split; [intros ->; split; [done|auto]|]); intros [Hn [-> | ->]]; done.
  - intros u c v d H1 H2. apply two_gossipers in H1 as [[-> ->]|[-> ->]], H2 as [[-> ->]|[-> ->]]; split; reflexivity.
  - intros u c H. apply two_gossipers in H as [[-> ->]|[-> ->]]; cbn; repeat constructor.
Qed.

Lemma heads_equivocate : equivocation (sy_gossipers toy_sys) head_a head_b.
Proof.
  split.
  - by left.
  - reflexivity.
  - split; [reflexivity|discriminate].
  - intros H. apply (f_equal fst) in H. vm_compute in H. discriminate.
  - intros u c H. apply two_gossipers in H as [[-> ->]|[-> ->]]; split; vm_compute; reflexivity.
Qed.

Definition given (l : list mail) : list (string * gobj) := omap (λ y, match y with ToGossip u g => Some (u, g) | _ => None end) l.
Lemma split_ok : is_oquiet (w_net (sys_run split_start split_world)) && lossless split_world && bool_decide (given (arrivals split_start split_world) = [("g1", head_a); ("g2", head_b)]) &&
  is_nil (w_mail (sys_run split_start split_world)) = true /\
  split_world !! 17 = Some (EDeliver 0 12) /\ w_mail (sys_run split_start (take 17 split_world)) !! 0 = Some (ToGossip "g1" head_a) /\
  split_world !! 18 = Some (EDeliver 0 12) /\ w_mail (sys_run split_start (take 18 split_world)) !! 0 = Some (ToGossip "g2" head_b).
Proof. vm_compute. split_and!; reflexivity. Qed.

Lemma split_given w g : arrives toy_z toy_x toy_sys split_start split_world (ToGossip w g) -> (w = "g1" /\ g = head_a) \/ (w = "g2" /\ g = head_b).
Proof.
  intros H%arrivals_sound. pose proof split_ok as [E _]. apply andb_true_iff in E as [[_ E]%andb_true_iff _]. apply bool_decide_eq_true in E.
  assert ((w, g) ∈ given (arrivals split_start split_world)) as Hg by (unfold given; apply elem_of_list_omap; exists (ToGossip w g); split; [exact H|reflexivity]).
  rewrite E in Hg. rewrite !elem_of_cons, elem_of_nil in Hg. destruct Hg as [Hg|[Hg|[]]]; injection Hg; auto.
Qed.

Lemma heads_harmless g : (exists w, (w = "g1" /\ g = head_a) \/ (w = "g2" /\ g = head_b)) -> harmless (sy_gossipers toy_sys) head_a g.
Proof.
  intros (w & [[_ ->]|[_ ->]]) _; (split; [rewrite !not_elem_of_cons; split_and!; try discriminate; apply not_elem_of_nil|]); intros _; (split; [reflexivity|discriminate]).
Qed.
Lemma split_one : one_version_given toy_z toy_x toy_sys split_start split_world head_a.
Proof.
  intros w g h Hg Hh _ _. apply split_given in Hg, Hh. destruct Hg as [[-> ->]|[-> ->]], Hh as [[E ->]|[E ->]]; try reflexivity; discriminate E.
Qed.

Lemma nil_none (l : list mail) y : is_nil l = true -> y ∉ l.
Proof. destruct l; [intros _; apply not_elem_of_nil|discriminate]. Qed.

Lemma split_hypotheses : connected (sy_gossipers toy_sys) /\ equivocation (sy_gossipers toy_sys) head_a head_b /\ one_period split_world /\
  (forall w g, arrives toy_z toy_x toy_sys split_start split_world (ToGossip w g) -> harmless (sy_gossipers toy_sys) head_a g) /\
  one_version_given toy_z toy_x toy_sys split_start split_world head_a /\
  arrives toy_z toy_x toy_sys split_start split_world (ToGossip "g1" head_a) /\ arrives toy_z toy_x toy_sys split_start split_world (ToGossip "g2" head_b) /\
  is_Some (sy_gossipers toy_sys !! "g1") /\ is_Some (sy_gossipers toy_sys !! "g2") /\ oquiescent (w_net (sys_run split_start split_world)) /\
  reports_arrived toy_z toy_x toy_sys split_start split_world /\ (forall mon m, EMonitor mon (Monitor.MWipe m) ∉ split_world).
Proof.
  pose proof split_ok as (H & H1 & H2 & H3 & H4). apply andb_true_iff in H as [[[Hq Hl]%andb_true_iff _]%andb_true_iff Hm].
  unfold lossless in Hl. rewrite forallb_forall in Hl.
  split_and!.
  - apply two_connected.
  - apply heads_equivocate.
  - intros ev Hev. apply elem_of_list_In, Hl in Hev. by destruct ev.
  - intros w g Hg. exact (heads_harmless g (ex_intro _ w (split_given w g Hg))).
  - exact split_one.
  - exact (arrives_at _ _ _ _ _ _ H1 H2).
  - exact (arrives_at _ _ _ _ _ _ H3 H4).
  - apply two_known. auto.
  - apply two_known. auto.
  - exact (is_oquiet_sound _ Hq).
  - intros mon g. split.
    + exact (nil_none _ _ Hm).
    + intros (l1 & i & l2 & E & _). assert (In (ELose i) split_world) as Hin by (rewrite E; apply in_or_app; right; by left). apply Hl in Hin. discriminate.
  - intros mon m Hin. apply elem_of_list_In, Hl in Hin. discriminate.
Qed.

(** And in the end the client has convicted the logger. *)
Lemma split_client : exists s, w_clients (sys_run split_start (split_world ++ period_end_and_load "m2" 12 "c1" "Period_12" true)) !! "c1" = Some s /\
  SpecClient.idle s /\ SpecClient.convicted s lg.
Proof. vm_compute. eexists. split; [reflexivity|]. split_and!; eauto. Qed.
