(** Every query of a monitor ends with an answer or with the notice that there is none. *)
From Verif Require Import Bytes Hex Json Types Crypto Verify Bitset CTngExt Revocation Clock Prog Gossiper Network Overlap System SpecSystemSilent SystemFacts SystemRuns.
From Verif Require Logger CA Monitor Client.
From Coq Require Import Lia.
Open Scope string_scope.

Section ask.
Context {P : prims} (z : gzip) (x : CA.x509lib) (S : sysconf P).
Notation wrun := (wrun z x S).
Notation wstep := (wstep z x S).

Lemma in_delete_or {A} (i : nat) (l : list A) y : y ∈ l -> y ∈ delete i l \/ l !! i = Some y.
Proof.
  intros [j Hj]%elem_of_list_lookup. destruct (decide (i = j)) as [->|Hn]; [by right|left].
  rewrite delete_take_drop, elem_of_app. destruct (decide (j < i)) as [L|L].
  - left. apply elem_of_list_lookup. exists j. by rewrite lookup_take.
  - right. apply elem_of_list_lookup. exists (j - Datatypes.S i). rewrite lookup_drop. replace (Datatypes.S i + (j - Datatypes.S i)) with j by lia. done.
Qed.

Definition grows (W W' : world) : Prop := forall y, y ∈ w_mail W -> y ∈ w_mail W'.
Lemma grows_send W W1 ms : w_mail W1 = w_mail W -> grows W (send W1 ms).
Proof. intros E y Hy. cbn. rewrite E. apply elem_of_app. by left. Qed.
Lemma grows_same W W1 : w_mail W1 = w_mail W -> grows W W1.
Proof. intros E y Hy. by rewrite E. Qed.
Hint Resolve grows_send grows_same : ask.

Lemma mon_event_grows W mon e : grows W (mon_event z S W mon e).
Proof. unfold mon_event. repeat case_match; auto with ask. Qed.
Lemma ask_grows W mon f e m : grows W (ask W mon f e m).
Proof. unfold ask. repeat case_match; auto with ask. Qed.

Lemma receive_grows W y m : grows W (receive z S W y m).
Proof.
  destruct y; cbn [receive]; auto using mon_event_grows, ask_grows; unfold with_net; repeat case_match; auto with ask.
Qed.

Lemma step_keeps W ev y : y ∈ w_mail W ->
  y ∈ w_mail (wstep W ev) \/
  (exists i m, ev = EDeliver i m /\ w_mail W !! i = Some y) \/
  (exists i, ev = ELose i /\ w_mail W !! i = Some y).
Proof.
  intros Hy. destruct ev; cbn [System.wstep].
  all: try (left; unfold with_net, ca_event; repeat case_match; solve [exact Hy | apply mon_event_grows; exact Hy | eapply grows_send; [|exact Hy]; reflexivity | eapply grows_same; [|exact Hy]; reflexivity]).
  - destruct (in_delete_or i _ _ Hy) as [H|H].
    + left. destruct (w_mail W !! i) as [a|] eqn:E; [|done]. apply receive_grows. exact H.
    + right; left. by eauto.
  - destruct (in_delete_or i _ _ Hy) as [H|H].
    + left. destruct (w_mail W !! i) as [a|] eqn:E; [|done]. cbn. apply elem_of_app. by left.
    + right; right. by eauto.
Qed.

Lemma ask_answers W mon f e m : f <> Acc -> exists r, Response mon f e r ∈ w_mail (ask W mon f e m).
Proof.
  intros Hf. unfold ask. destruct f; [| |done].
  all: repeat case_match; cbn; eexists; apply elem_of_app; right; by apply elem_of_list_singleton.
Qed.

Lemma open_step W ev mon f e : f <> Acc -> open_query W mon f e ->
  open_query (wstep W ev) mon f e \/ exists i m r, ev = EDeliver i m /\ w_mail W !! i = Some (Response mon f e r).
Proof.
  intros Hf [Hq|[r Hr]].
  - destruct (step_keeps _ ev _ Hq) as [H|[(i & m & -> & H)|(i & -> & H)]].
    + left. by left.
    + left. right. cbn [System.wstep]. rewrite H. cbn [receive]. by apply ask_answers.
    + left. right. cbn [System.wstep]. rewrite H. exists None. cbn. apply elem_of_app. right. by apply elem_of_list_singleton.
  - destruct (step_keeps _ ev _ Hr) as [H|[(i & m & -> & H)|(i & -> & H)]].
    + left. right. by exists r.
    + right. by exists i, m, r.
    + left. right. cbn [System.wstep]. rewrite H. exists None. cbn. apply elem_of_app. right. by apply elem_of_list_singleton.
Qed.

(** Either it is still under way, or a result has been delivered. *)
Theorem query_ends W0 l1 l2 mon f e : f <> Acc -> open_query (wrun W0 l1) mon f e -> ~ open_query (wrun W0 (l1 ++ l2)) mon f e ->
  exists la i m lb r, l2 = (la ++ EDeliver i m :: lb)%list /\ w_mail (wrun W0 (l1 ++ la)) !! i = Some (Response mon f e r).
Proof.
  intros Hf. revert l1. induction l2 as [|ev l2 IH]; intros l1 H0 Hn; [by rewrite app_nil_r in Hn|].
  destruct (open_step _ ev _ _ _ Hf H0) as [H|(i & m & r & -> & E)].
  - destruct (IH (l1 ++ [ev])%list) as (la & i & m & lb & r & -> & E); [by rewrite run_snoc|by rewrite <- app_assoc|].
    exists (ev :: la), i, m, lb, r. split; [done|]. by rewrite <- app_assoc in E.
  - exists [], i, m, l2, r. split; [done|]. by rewrite app_nil_r.
Qed.

(** An entity that does not run gives no answer. *)
Definition no_answer (W : world) (mon : string) (f : fam) (e : string) : Prop := forall g, Response mon f e (Some g) ∉ w_mail W.

Lemma down_step W ev e : not_running W e -> not_running (wstep W ev) e.
Proof.
  intros [H1 H2].
  assert (forall W1 mon me, not_running W1 e -> not_running (mon_event z S W1 mon me) e) as Hm.
  { intros W1 mon me HW. unfold mon_event. repeat case_match; exact HW. }
  assert (forall (A : Type) (m : gmap string A) k v, m !! e = None -> is_Some (m !! k) -> <[k := v]> m !! e = None) as Hi.
  { intros A m k v He [a Ha]. rewrite lookup_insert_ne; [done|]. intros ->. congruence. }
  assert (forall (A : Type) (m : gmap string A) k, m !! e = None -> delete k m !! e = None) as Hx.
  { intros A m k He. apply lookup_delete_None. by right. }
  destruct ev; cbn [System.wstep]; unfold with_net, ca_event.
  1: destruct (w_mail W !! i) as [y|]; [|by split]; destruct y; cbn [receive]; unfold ask, with_net.
  all: repeat case_match; try (apply Hm); try (split; cbn; first [exact H1 | exact H2 | apply Hi; [done|by eexists] | by apply Hx]).
Qed.

Lemma mon_no_answer W mon f e mon' me : no_answer W mon f e -> no_answer (mon_event z S W mon' me) mon f e.
Proof.
  intros H g. unfold mon_event. repeat case_match; try apply H. cbn. rewrite elem_of_app. intros [Hin|Hin]; [by apply H in Hin|].
  apply elem_of_list_fmap in Hin as (o & E & _). by destruct o.
Qed.

Lemma net_no_answer W mon f e N : no_answer W mon f e -> no_answer (with_net W N) mon f e.
Proof.
  intros H g. unfold with_net. cbn. rewrite elem_of_app. intros [HN|HN]; [by apply H in HN|].
  unfold new_reports in HN. apply elem_of_list_In, in_concat in HN as (ms & (uy & <- & _)%in_map_iff & Hms%elem_of_list_In).
  destruct (on_nodes (w_net W) !! uy.1); [|by apply elem_of_nil in Hms].
  unfold reports in Hms. apply elem_of_list_omap in Hms as ([] & _ & E); done.
Qed.

Lemma quiet_step W ev mon f e : not_running W e -> no_answer W mon f e -> (forall g, ev <> EInject (Response mon f e (Some g))) ->
  no_answer (wstep W ev) mon f e.
Proof.
  intros [D1 D2] H Hi.
  assert (forall W1 ms, w_mail W1 = w_mail W -> (forall y, y ∈ ms -> forall g, y <> Response mon f e (Some g)) -> no_answer (send W1 ms) mon f e) as Hs.
  { intros W1 ms E Hms g. cbn. rewrite E, elem_of_app. intros [?|?]; [by eapply H|by eapply Hms]. }
  assert (forall i, no_answer (set_mail W (delete i (w_mail W))) mon f e) as Hd.
  { intros i g Hin. cbn in Hin. by apply in_delete, H in Hin. }
  destruct ev; cbn [System.wstep]; unfold ca_event.
  - destruct (w_mail W !! i) as [y|] eqn:E; [|done]. specialize (Hd i). destruct y; cbn [receive]; try (by apply mon_no_answer); try (by apply net_no_answer); try (repeat case_match; exact Hd).
    unfold ask. destruct f0; [| |exact Hd].
    all: cbn; repeat case_match; intros g; cbn; rewrite elem_of_app, elem_of_list_singleton; intros [Hin|Hin]; try (by apply Hd in Hin); try congruence.
  - destruct (w_mail W !! i) as [y|] eqn:E; [|done]. intros g. cbn. rewrite elem_of_app. intros [Hin|Hin]; [by apply Hd in Hin|].
    destruct y; cbn in Hin; try (by apply elem_of_nil in Hin); apply elem_of_list_singleton in Hin; congruence.
  - apply Hs; [done|]. intros y Hy%elem_of_list_singleton g. subst. intros ->. by eapply Hi.
  - exact H.
  - destruct (inner_event e0); [by apply net_no_answer|done].
  - by apply net_no_answer.
  - repeat case_match; try exact H; (apply Hs; [done|]; intros y (o & -> & _)%elem_of_list_fmap g'; by destruct o).
  - repeat case_match; exact H.
  - repeat case_match; try exact H. apply Hs; [done|]; intros y (o & -> & _)%elem_of_list_fmap g'; by destruct o.
  - repeat case_match; exact H.
  - repeat case_match; exact H.
  - destruct (own_event e0); [by apply mon_no_answer|done].
  - repeat case_match; exact H.
Qed.

(** A query to an entity that does not run ends, and all its results are failures. *)
Theorem down_query_fails W0 l1 l2 mon f e : f <> Acc -> open_query (wrun W0 l1) mon f e -> not_running (wrun W0 l1) e ->
  (forall g, Response mon f e (Some g) ∉ w_mail (wrun W0 l1)) -> (forall g, EInject (Response mon f e (Some g)) ∉ l2) ->
  ~ open_query (wrun W0 (l1 ++ l2)) mon f e ->
  exists la i m lb, l2 = (la ++ EDeliver i m :: lb)%list /\ w_mail (wrun W0 (l1 ++ la)) !! i = Some (Response mon f e None).
Proof.
  intros Hf H0 Hd Hna Hi Hn. destruct (query_ends _ _ _ _ _ _ Hf H0 Hn) as (la & i & m & lb & r & -> & E).
  exists la, i, m, lb. split; [done|]. rewrite E. do 2 f_equal. destruct r as [g|]; [|done]. exfalso.
  assert (forall la', (forall g, EInject (Response mon f e (Some g)) ∉ la') ->
    not_running (wrun W0 (l1 ++ la')) e /\ no_answer (wrun W0 (l1 ++ la')) mon f e) as HQ.
  { intros la'. induction la' as [|ev la' IH] using rev_ind; intros Hi'; [by rewrite app_nil_r|].
    destruct IH as [A B]; [intros g' Hg; apply (Hi' g'), elem_of_app; by left|]. rewrite app_assoc, run_snoc. split; [by apply down_step|].
    apply quiet_step; [done..|]. intros g' ->. apply (Hi' g'), elem_of_app. right. by apply elem_of_list_singleton. }
  destruct (HQ la) as [_ B]; [intros g' Hg; apply (Hi g'), elem_of_app; by left|]. eapply B. by eapply elem_of_list_lookup_2.
Qed.
End ask.
