(** Reasoning about what goroutines still have to do.

    A duty arises when a condition becomes true and is done when another
    one is; in between some goroutine is going to do it, or has created a
    timer that will.  Credits bound what goroutines may still send. *)
From Verif Require Import Bytes Prog Overlap ProgFacts.
From Coq Require Import Lia.

Record duty (St Task : Type) : Type := mkduty { du_when : St -> Prop; du_done : St -> Prop; du_task : Task -> Prop }.
Arguments mkduty {St Task}. Arguments du_when {St Task}. Arguments du_done {St Task}. Arguments du_task {St Task}.

Lemma list_mid {A} (l : list A) i x : l !! i = Some x -> exists l1 l2, l = (l1 ++ x :: l2)%list /\ i = length l1.
Proof. intros H. exists (take i l), (drop (S i) l). split; [by rewrite take_drop_middle|]. apply lookup_lt_Some in H. rewrite take_length. lia. Qed.
Lemma insert_mid {A} (l1 l2 : list A) x y : <[length l1 := y]> (l1 ++ x :: l2)%list = (l1 ++ y :: l2)%list.
Proof. rewrite <- (Nat.add_0_r (length l1)). by rewrite insert_app_r. Qed.
Lemma delete_mid {A} (l1 l2 : list A) x : delete (length l1) (l1 ++ x :: l2)%list = (l1 ++ l2)%list.
Proof. by rewrite delete_middle. Qed.

Section duty.
Context {St Task : Type} (start : Task -> prog St Task unit).
(** [I0], [R0]: an invariant and a relation kept anyway; [I], [R]: those
    needed here. *)
Context (I0 : St -> Prop) (R0 : St -> St -> Prop) (tok0 : Task -> St -> Prop) (cok0 : crash -> Prop).
Context (I : St -> Prop) (R : St -> St -> Prop) (tok : Task -> Prop).
Context `{!PreOrder R0} `{!PreOrder R}.
(** [D]: duties goroutines may create. *)
Context (D : duty St Task -> Prop).
(** [C]: what has been spent, [B]: what may be, [w]: the price of a timer. *)
Context (B C : St -> nat) (w : nat).

Fixpoint pays {A} (d : duty St Task) (p : prog St Task A) (s : St) : Prop :=
  du_done d s \/
  match p with
  | Ret _ | Crash _ => False
  | Act f k => forall s1, R s s1 -> I0 s1 -> I s1 -> I0 (f s1).1 -> R s1 (f s1).1 -> I (f s1).1 -> pays d (k (f s1).2) (f s1).1
  | Fork t k => du_task d t \/ pays d k s
  end.

Fixpoint good {A} (n : nat) (p : prog St Task A) (s : St) : Prop :=
  match p with
  | Ret _ => True
  | Crash _ => False
  | Act f k => forall s1, R s s1 -> I0 s1 -> I s1 -> I0 (f s1).1 ->
      I (f s1).1 /\ R s1 (f s1).1 /\
      (forall d, D d -> du_when d (f s1).1 -> du_when d s1 \/ pays d (k (f s1).2) (f s1).1) /\
      exists n', C (f s1).1 + n' + B s1 <= C s1 + n + B (f s1).1 /\ good n' (k (f s1).2) (f s1).1
  | Fork t k => tok t /\ exists n', n' + w <= n /\ good n' k s
  end.

Definition lasting (d : duty St Task) : Prop := forall s s', R s s' -> du_done d s -> du_done d s'.

Lemma pays_done {A} d (p : prog St Task A) s : du_done d s -> pays d p s.
Proof using. destruct p; by left. Qed.

Lemma pays_lasts {A} d (p : prog St Task A) s s' : lasting d -> pays d p s -> R s s' -> pays d p s'.
Proof using PreOrder1.
  intros Hd. revert s s'. induction p as [a|x|X f k IH|t k IH]; intros s s' H HR; (destruct H as [H|H]; [left; by eapply Hd|]); cbn in *; auto.
  - right. intros s1 H1. apply H. by transitivity s'.
  - destruct H as [H|H]; [auto|]. right; right. by eapply IH.
Qed.

Lemma good_lasts {A} n (p : prog St Task A) s s' : good n p s -> R s s' -> good n p s'.
Proof using PreOrder1.
  revert n s s'. induction p as [a|x|X f k IH|t k IH]; intros n s s' H HR; cbn in *; auto.
  - intros s1 H1. apply H. by transitivity s'.
  - destruct H as (H1 & n' & H2 & H3). eauto.
Qed.

Lemma good_more {A} n m (p : prog St Task A) s : n <= m -> good n p s -> good m p s.
Proof using.
  clear. revert n m s. induction p as [a|x|X f k IH|t k IH]; intros n m s Hn H; cbn in *; auto.
  - intros s1 H1 H2 H3 H4. destruct (H s1 H1 H2 H3 H4) as (A1 & A2 & A3 & n' & A4 & A5). split_and!; auto. exists n'. split; [lia|done].
  - destruct H as (H1 & n' & H2 & H3). split; [done|]. exists n'. split; [lia|done].
Qed.

(** ** Steps of programs *)
Lemma pays_read {A X} d (f : St -> X) (k : X -> prog St Task A) s :
  (forall s1, R s s1 -> I0 s1 -> I s1 -> pays d (k (f s1)) s1) -> pays d (Act (λ s, (s, f s)) k) s.
Proof using. clear. intros H. right. intros s1 H1 H2 H3 _ _ _. cbn. by apply H. Qed.

Lemma good_read {A X} n (f : St -> X) (k : X -> prog St Task A) s :
  (forall s1, R s s1 -> I0 s1 -> I s1 -> good n (k (f s1)) s1) -> good n (Act (λ s, (s, f s)) k) s.
Proof using PreOrder1. intros H s1 H1 H2 H3 _. cbn. split_and!; auto; [reflexivity|]. exists n. split; [lia|]. by apply H. Qed.

Lemma pays_weaken {A} d d' (q : prog St Task A) s : (forall s, du_done d s -> du_done d' s) -> (forall t, du_task d t -> du_task d' t) ->
  pays d q s -> pays d' q s.
Proof using.
  clear. intros H1 H2. revert s. induction q as [a|x|X f k IH|t k IH]; intros s H; (destruct H as [H|H]; [left; by apply H1|]).
  - destruct H.
  - destruct H.
  - right. intros s1 A1 A2 A3 A4 A5 A6. by apply IH, H.
  - right. destruct H as [H|H]; auto.
Qed.

(** ** Sequences *)
Lemma pays_first {A A'} d (q : prog St Task A) (r : A -> prog St Task A') s : pays d q s -> pays d (pbind q r) s.
Proof using.
  clear. revert s. induction q as [a|x|X f k IH|t k IH]; intros s H.
  - destruct H as [H|[]]. by apply pays_done.
  - destruct H as [H|[]]. by apply pays_done.
  - destruct H as [H|H]; [by apply pays_done|]. right. intros s1 H1 H2 H3 H4 H5 H6. by apply IH, H.
  - destruct H as [H|[H|H]]; [by apply pays_done|right; by left|]. right; right. by apply IH.
Qed.

Lemma pays_second {A A'} d n (q : prog St Task A) (r : A -> prog St Task A') s :
  good n q s -> (forall a s, pays d (r a) s) -> pays d (pbind q r) s.
Proof using.
  clear. intros H Hr. revert n s H. induction q as [a|x|X f k IH|t k IH]; intros n s H; cbn [pbind].
  - apply Hr.
  - destruct H.
  - right. intros s1 H1 H2 H3 H4 H5 H6. destruct (H s1 H1 H2 H3 H4) as (_ & _ & _ & n' & _ & Hn). by eapply IH.
  - destruct H as (_ & n' & _ & Hn). right; right. by eapply IH.
Qed.

Lemma good_seq {A A'} n m (q : prog St Task A) (r : A -> prog St Task A') s :
  good n q s -> (forall a s, good m (r a) s) -> good (n + m) (pbind q r) s.
Proof using.
  clear. intros H Hr. revert n s H. induction q as [a|x|X f k IH|t k IH]; intros n s H; cbn [pbind].
  - eapply good_more; [|apply Hr]. lia.
  - destruct H.
  - intros s1 H1 H2 H3 H4. destruct (H s1 H1 H2 H3 H4) as (A1 & A2 & A3 & n' & A4 & A5). split_and!; auto.
    + intros d Hd Hw. destruct (A3 d Hd Hw) as [?|Hp]; [by left|]. right. by apply pays_first.
    + exists (n' + m). split; [lia|]. by apply IH.
  - destruct H as (H1 & n' & H2 & H3). split; [done|]. exists (n' + m). split; [lia|]. by apply IH.
Qed.

(** ** Pools *)
Definition owed (d : duty St Task) (y : pool St Task) : Prop :=
  du_done d (p_st y) \/ (exists q, q ∈ p_threads y /\ pays d q (p_st y)) \/ (exists t, t ∈ p_tasks y /\ du_task d t).

Record pool_good (n : nat) (y : pool St Task) : Prop := mkpg {
  pg_ok : pool_ok I0 R0 tok0 cok0 y;
  pg_inv : I (p_st y);
  pg_credit : exists ns, Forall2 (λ n q, good n q (p_st y)) ns (p_threads y) /\ C (p_st y) + sum_list ns + w * (length (p_tasks y) + n) <= B (p_st y);
  pg_tasks : Forall tok (p_tasks y);
  pg_duties : forall d, D d -> du_when d (p_st y) -> owed d y;
  pg_crashes : p_crashes y = []
}.

Context (D_lasting : forall d, D d -> lasting d).
Context (req : prog St Task unit -> Prop) (env : St -> St -> Prop).
Context (tok0_stable : forall t s s', tok0 t s -> R0 s s' -> tok0 t s').
Context (start_safe : forall t s, tok0 t s -> safe I0 R0 tok0 cok0 (λ _ _, True) (start t) s).
Context (req_safe : forall p s, req p -> I0 s -> safe I0 R0 tok0 cok0 (λ _ _, True) p s).
Context (env_safe : forall s s', env s s' -> I0 s -> I0 s' /\ R0 s s').

Lemma pok y y' : pstep start req env y y' -> pool_ok I0 R0 tok0 cok0 y -> pool_ok I0 R0 tok0 cok0 y'.
Proof using All. intros H1 H2. by eapply pool_step. Qed.

Lemma thread_pstep i y : thread_step i y = y \/ pstep start req env y (thread_step i y).
Proof using.
  clear. unfold thread_step. destruct (p_threads y !! i) as [q|] eqn:E; [right|by left].
  destruct y as [s l ts cr]. cbn in *. apply list_mid in E as (l1 & l2 & -> & ->). destruct q as [a|x|X f k|t k].
  - rewrite delete_mid. apply step_ret.
  - rewrite delete_mid. apply step_crash.
  - destruct (f s) as [s' x] eqn:Ef. rewrite insert_mid. by apply step_act.
  - rewrite insert_mid. apply step_fork.
Qed.

Lemma thread_good n i y : pool_good n y -> pool_good n (thread_step i y) /\ R (p_st y) (p_st (thread_step i y)) /\
  R0 (p_st y) (p_st (thread_step i y)) /\ (forall d, lasting d -> owed d y -> owed d (thread_step i y)).
Proof using All.
  intros [H0 HI (ns & Hg & Hc) Ht Hd Hcr]. pose proof (thread_pstep i y) as [E|Hp].
  { rewrite E. split; [|split; [reflexivity|split; [reflexivity|done]]]. split; eauto. }
  destruct (pool_step I0 R0 tok0 cok0 tok0_stable start req env start_safe req_safe env_safe _ _ Hp H0) as [H0' HR0]. clear Hp.
  unfold thread_step in *. destruct y as [s l ts cr]. cbn in *. destruct (l !! i) as [q|] eqn:E.
  2: { split; [|split; [reflexivity|done]]. split; cbn; eauto. }
  apply list_mid in E as (l1 & l2 & -> & ->).
  apply Forall2_app_inv_r in Hg as (n1 & n2' & Hg1 & Hg2 & ->). apply Forall2_cons_inv_r in Hg2 as (nq & n2 & Hq & Hg2 & ->).
  rewrite sum_list_with_app in Hc. cbn [sum_list_with id] in Hc.
  destruct q as [a|x|X f k|t k].
  - rewrite delete_mid in *. cbn in *.
    assert (forall d, owed d (mkpool s (l1 ++ Ret a :: l2) ts cr) -> owed d (mkpool s (l1 ++ l2) ts cr)) as Ho.
    { intros d [H|[(q & Hq' & Hp)|H]]; [by left| |by right; right]. cbn in *. apply elem_of_app in Hq' as [Hq'|Hq'].
      - right; left. exists q. split; [apply elem_of_app; by left|done].
      - apply elem_of_cons in Hq' as [->|Hq']; [destruct Hp as [Hp|[]]; by left|]. right; left. exists q. split; [apply elem_of_app; by right|done]. }
    split; [|split; [reflexivity|split; [reflexivity|auto]]]. split; cbn; auto.
    exists (n1 ++ n2)%list. split; [by apply Forall2_app|]. rewrite sum_list_with_app. lia.
  - destruct Hq.
  - destruct (f s) as [s' x] eqn:Ef. rewrite insert_mid in *. cbn in *.
    assert (I0 s) as HI0 by apply H0. assert (I0 s') as HI0' by apply H0'.
    specialize (Hq s (reflexivity _) HI0 HI). rewrite Ef in Hq. cbn in Hq. destruct (Hq HI0') as (A1 & A2 & A3 & n' & A4 & A5).
    assert (forall d, lasting d -> owed d (mkpool s (l1 ++ Act f k :: l2) ts cr) -> owed d (mkpool s' (l1 ++ k x :: l2) ts cr)) as Ho.
    { intros d Hl [H|[(q & Hq' & Hp)|H]]; [left; by eapply Hl| |by right; right]. cbn in *. apply elem_of_app in Hq' as [Hq'|Hq'].
      - right; left. exists q. split; [apply elem_of_app; by left|by eapply pays_lasts].
      - apply elem_of_cons in Hq' as [->|Hq'].
        + destruct Hp as [Hp|Hp]; [left; by eapply Hl|]. right; left. exists (k x). split; [apply elem_of_app; right; by left|].
          specialize (Hp s (reflexivity _) HI0 HI). rewrite Ef in Hp. cbn in Hp. by apply Hp.
        + right; left. exists q. split; [apply elem_of_app; right; by right|by eapply pays_lasts]. }
    split; [|split; [done|split; [done|exact Ho]]]. split; cbn; auto.
    + exists (n1 ++ n' :: n2)%list. split.
      * apply Forall2_app; [|constructor; [done|]]; (eapply Forall2_impl; [eassumption|]); intros ? ? Hx; cbn in Hx; exact (good_lasts _ _ _ _ Hx A2).
      * rewrite sum_list_with_app. cbn [sum_list_with id]. lia.
    + intros d HDd Hw. destruct (A3 d HDd Hw) as [Hw'|Hp].
      * apply Ho; auto.
      * right; left. exists (k x). split; [apply elem_of_app; right; by left|done].
  - rewrite insert_mid in *. cbn in *. destruct Hq as (Hk & n' & Hn & Hq).
    assert (forall d, owed d (mkpool s (l1 ++ Fork t k :: l2) ts cr) -> owed d (mkpool s (l1 ++ k :: l2) (ts ++ [t]) cr)) as Ho.
    { intros d [H|[(q & Hq' & Hp)|(t' & Ht' & Hp)]]; [by left| |]; cbn in *.
      - apply elem_of_app in Hq' as [Hq'|Hq'].
        + right; left. exists q. split; [apply elem_of_app; by left|done].
        + apply elem_of_cons in Hq' as [->|Hq'].
          * destruct Hp as [Hp|[Hp|Hp]]; [by left| |].
            -- right; right. exists t. split; [apply elem_of_app; right; by left|done].
            -- right; left. exists k. split; [apply elem_of_app; right; by left|done].
          * right; left. exists q. split; [apply elem_of_app; right; by right|done].
      - right; right. exists t'. split; [apply elem_of_app; by left|done]. }
    split; [|split; [reflexivity|split; [reflexivity|auto]]]. split; cbn; auto.
    + exists (n1 ++ n' :: n2)%list. split.
      * apply Forall2_app; [done|]. by constructor.
      * rewrite sum_list_with_app, app_length. cbn [sum_list_with id length]. lia.
    + apply Forall_app. auto.
Qed.

Lemma owed_start d n i y : pool_good n y -> (forall t, du_task d t -> tok t -> pays d (start t) (p_st y)) ->
  owed d y -> owed d (task_start start i y).
Proof using.
  clear. intros [_ _ _ Ht _ _] Hs Ho. unfold task_start. destruct (p_tasks y !! i) as [t|] eqn:E; [|done].
  destruct Ho as [H|[(q & Hq & Hp)|(t' & Ht' & Hp)]]; [by left| |].
  - right; left. exists q. split; [cbn; apply elem_of_app; by left|done].
  - cbn in *. apply list_mid in E as (l1 & l2 & E & ->). rewrite E in *. rewrite delete_mid. apply elem_of_app in Ht' as [Ht'|Ht'].
    + right; right. exists t'. split; [apply elem_of_app; by left|done].
    + apply elem_of_cons in Ht' as [->|Ht'].
      * right; left. exists (start t). split; [apply elem_of_app; right; by left|]. cbn. apply Hs; auto.
        apply Forall_app in Ht as [_ Ht]. by apply Forall_cons in Ht as [? _].
      * right; right. exists t'. split; [apply elem_of_app; by right|done].
Qed.

Lemma start_good n i y : pool_good n y -> (forall t, tok t -> good 0 (start t) (p_st y)) ->
  (forall d t, D d -> du_task d t -> tok t -> pays d (start t) (p_st y)) ->
  p_st (task_start start i y) = p_st y /\ pool_good (if decide (i < length (p_tasks y)) then S n else n) (task_start start i y).
Proof using All.
  intros Hy Hg Hp. pose proof Hy as [H0 HI (ns & Hns & Hc) Ht Hd Hcr].
  pose proof (λ d, owed_start d n i y Hy) as Ho. unfold task_start in *.
  destruct (p_tasks y !! i) as [t|] eqn:E; [|].
  2: { split; [done|]. apply lookup_ge_None in E. by rewrite decide_False by lia. }
  pose proof E as El. apply lookup_lt_Some in El. rewrite decide_True by done. cbn [p_st]. split; [done|].
  destruct y as [s l ts cr]. cbn in *. apply list_mid in E as (l1 & l2 & -> & ->). rewrite delete_mid in *.
  apply Forall_app in Ht as [Ht1 Ht2]. apply Forall_cons in Ht2 as [Ht Ht2].
  split; cbn; [|done| | | |done].
  - eapply pok; [|exact H0]. apply step_start.
  - exists (ns ++ [0])%list. split.
    + apply Forall2_app; [done|]. constructor; [by apply Hg|constructor].
    + rewrite sum_list_with_app. cbn [sum_list_with id]. rewrite app_length in *. cbn [length] in *. lia.
  - by apply Forall_app.
  - intros d HD Hw. apply Ho; [|by apply Hd]. intros t' H1 H2. by apply Hp.
Qed.

Lemma add_good n q y : req q -> pool_good n y -> good 0 q (p_st y) ->
  pool_good n (thread_add q y) /\ (forall d, pays d q (p_st y) -> owed d (thread_add q y)) /\ (forall d, owed d y -> owed d (thread_add q y)).
Proof using All.
  intros Hq Hy Hg. pose proof Hy as [H0 HI (ns & Hns & Hc) Ht Hd Hcr].
  assert (forall d, owed d y -> owed d (thread_add q y)) as Ho.
  { intros d [H|[(q' & Hq' & Hp)|H]]; [by left| |by right; right]. right; left. exists q'. split; [cbn; apply elem_of_app; by left|done]. }
  split; [|split; [|done]].
  - split; cbn; [|done| |done| |done].
    + eapply pok; [|exact H0]. destruct y. by apply step_req.
    + exists (ns ++ [0])%list. split; [apply Forall2_app; [done|]; by repeat constructor|]. rewrite sum_list_with_app. cbn [sum_list_with id]. lia.
    + intros d HD Hw. by apply Ho, Hd.
  - intros d Hp. right; left. exists q. split; [cbn; apply elem_of_app; right; by left|done].
Qed.

Lemma env_good n y s' : env (p_st y) s' -> I s' -> R (p_st y) s' -> C s' = C (p_st y) -> B s' = B (p_st y) ->
  (forall d, D d -> du_when d s' -> du_when d (p_st y)) -> pool_good n y ->
  let y' := mkpool s' (p_threads y) (p_tasks y) (p_crashes y) in
  pool_good n y' /\ R0 (p_st y) s' /\ (forall d, lasting d -> owed d y -> owed d y').
Proof using All.
  intros He HI' HR EC EB Hw Hy y'. pose proof Hy as [H0 HI (ns & Hns & Hc) Ht Hd Hcr].
  assert (forall d, lasting d -> owed d y -> owed d y') as Ho.
  { intros d Hl [H|[(q' & Hq' & Hp)|H]]; [left; by eapply Hl| |by right; right]. right; left. exists q'. split; [done|]. cbn. by eapply pays_lasts. }
  split; [|split; [by apply (env_safe _ _ He), H0|done]]. split; cbn; [|done| |done|auto|done].
  - eapply pok; [|exact H0]. destruct y. by apply step_env.
  - exists ns. split; [|by rewrite EC, EB]. eapply Forall2_impl; [exact Hns|]. intros ? ? Hx; cbn in Hx. exact (good_lasts _ _ _ _ Hx HR).
Qed.
End duty.
