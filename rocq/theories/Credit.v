(** Credits of goroutines.

    Each goroutine carries a number of credits.  A step may raise a cost
    [C] of the state only by spending credits, or by raising an allowance
    [B] as much; timers carry the credits of the goroutine they start. *)
From Verif Require Import Bytes Prog Overlap ProgFacts Duty.
From Coq Require Import Lia.

Section credit.
Context {St Task : Type} (I : St -> Prop) (R : St -> St -> Prop) `{!PreOrder R}.
Context (B C : St -> nat) (w : Task -> nat).

Fixpoint cheap {A} (n : nat) (p : prog St Task A) (s : St) : Prop :=
  match p with
  | Ret _ | Crash _ => True
  | Act f k => forall s1, R s s1 -> I s1 -> I (f s1).1 -> R s1 (f s1).1 ->
      exists n', C (f s1).1 + n' + B s1 <= C s1 + n + B (f s1).1 /\ cheap n' (k (f s1).2) (f s1).1
  | Fork t k => exists n', n' + w t <= n /\ cheap n' k s
  end.

Lemma cheap_lasts {A} n (p : prog St Task A) s s' : cheap n p s -> R s s' -> cheap n p s'.
Proof using PreOrder0.
  revert n s s'. induction p as [a|x|X f k IH|t k IH]; intros n s s' H HR; cbn in *; auto.
  - intros s1 H1. apply H. by transitivity s'.
  - destruct H as (n' & H2 & H3). eauto.
Qed.
Lemma cheap_more {A} n m (p : prog St Task A) s : n <= m -> cheap n p s -> cheap m p s.
Proof using.
  clear. revert n m s. induction p as [a|x|X f k IH|t k IH]; intros n m s Hn H; cbn in *; auto.
  - intros s1 H1 H2 H3 H4. destruct (H s1 H1 H2 H3 H4) as (n' & A4 & A5). exists n'. split; [lia|done].
  - destruct H as (n' & H2 & H3). exists n'. split; [lia|done].
Qed.
Lemma cheap_read {A X} n (f : St -> X) (k : X -> prog St Task A) s :
  (forall s1, R s s1 -> I s1 -> cheap n (k (f s1)) s1) -> cheap n (Act (λ s, (s, f s)) k) s.
Proof using. clear. intros H s1 H1 H2 _ _. cbn. exists n. split; [lia|]. by apply H. Qed.
Lemma cheap_seq {A A'} n m (q : prog St Task A) (r : A -> prog St Task A') s :
  cheap n q s -> (forall a s, cheap m (r a) s) -> cheap (n + m) (pbind q r) s.
Proof using.
  clear. intros H Hr. revert n s H. induction q as [a|x|X f k IH|t k IH]; intros n s H; cbn [pbind].
  - eapply cheap_more; [|apply Hr]. lia.
  - done.
  - intros s1 H1 H2 H3 H4. destruct (H s1 H1 H2 H3 H4) as (n' & A4 & A5). exists (n' + m). split; [lia|]. by apply IH.
  - destruct H as (n' & H2 & H3). exists (n' + m). split; [lia|]. by apply IH.
Qed.

(** [K]: credits given to goroutines from outside. *)
Definition within (K : nat) (y : pool St Task) : Prop :=
  exists ns, Forall2 (λ n q, cheap n q (p_st y)) ns (p_threads y) /\
    C (p_st y) + sum_list ns + sum_list_with w (p_tasks y) <= B (p_st y) + K.

Lemma within_more K K' y : K <= K' -> within K y -> within K' y.
Proof using. clear. intros H (ns & H1 & H2). exists ns. split; [done|lia]. Qed.

Lemma within_thread K i y : I (p_st y) -> I (p_st (thread_step i y)) -> R (p_st y) (p_st (thread_step i y)) ->
  within K y -> within K (thread_step i y).
Proof using PreOrder0.
  intros HI HI' HR (ns & Hg & Hc). unfold thread_step in *. destruct y as [s l ts cr]. cbn in *.
  destruct (l !! i) as [q|] eqn:E; [|by exists ns].
  apply list_mid in E as (l1 & l2 & -> & ->).
  apply Forall2_app_inv_r in Hg as (n1 & n2' & Hg1 & Hg2 & ->). apply Forall2_cons_inv_r in Hg2 as (nq & n2 & Hq & Hg2 & ->).
  rewrite sum_list_with_app in Hc. cbn [sum_list_with id] in Hc.
  destruct q as [a|x|X f k|t k].
  - rewrite delete_mid. exists (n1 ++ n2)%list. cbn. split; [by apply Forall2_app|]. rewrite sum_list_with_app. lia.
  - rewrite delete_mid. exists (n1 ++ n2)%list. cbn. split; [by apply Forall2_app|]. rewrite sum_list_with_app. lia.
  - destruct (f s) as [s' x] eqn:Ef. rewrite insert_mid. cbn in *.
    specialize (Hq s (reflexivity _) HI). rewrite Ef in Hq. cbn in Hq. destruct (Hq HI' HR) as (n' & A4 & A5).
    exists (n1 ++ n' :: n2)%list. cbn. split.
    + apply Forall2_app; [|constructor; [done|]]; (eapply Forall2_impl; [eassumption|]); intros ? ? Hx; cbn in Hx; exact (cheap_lasts _ _ _ _ Hx HR).
    + rewrite sum_list_with_app. cbn [sum_list_with id]. lia.
  - rewrite insert_mid. cbn in *. destruct Hq as (n' & Hn & Hq). exists (n1 ++ n' :: n2)%list. cbn. split.
    + apply Forall2_app; [done|]. by constructor.
    + rewrite !sum_list_with_app. cbn [sum_list_with id]. lia.
Qed.

Lemma within_start start K i y : (forall t, t ∈ p_tasks y -> cheap (w t) (start t) (p_st y)) -> within K y -> within K (task_start start i y).
Proof using.
  clear. intros Hs (ns & Hg & Hc). unfold task_start. destruct (p_tasks y !! i) as [t|] eqn:E; [|by exists ns].
  destruct y as [s l ts cr]. cbn in *. assert (t ∈ ts) as Ht by (by eapply elem_of_list_lookup_2).
  apply list_mid in E as (l1 & l2 & -> & ->). rewrite delete_mid. exists (ns ++ [w t])%list. cbn. split.
  - apply Forall2_app; [done|]. constructor; [by apply Hs|constructor].
  - rewrite !sum_list_with_app in *. cbn [sum_list_with id] in *. lia.
Qed.

Lemma within_add n K q y : cheap n q (p_st y) -> within K y -> within (K + n) (thread_add q y).
Proof using.
  clear. intros Hq (ns & Hg & Hc). exists (ns ++ [n])%list. cbn. split.
  - apply Forall2_app; [done|]. constructor; [done|constructor].
  - rewrite !sum_list_with_app in *. cbn [sum_list_with id] in *. lia.
Qed.

Lemma within_env K y s' : R (p_st y) s' -> C s' = C (p_st y) -> B s' = B (p_st y) -> within K y ->
  within K (mkpool s' (p_threads y) (p_tasks y) (p_crashes y)).
Proof using PreOrder0.
  intros HR EC EB (ns & Hg & Hc). exists ns. cbn. rewrite EC, EB. split; [|done].
  eapply Forall2_impl; [exact Hg|]. intros ? ? Hx; cbn in Hx. exact (cheap_lasts _ _ _ _ Hx HR).
Qed.

Lemma within_cost K y : within K y -> C (p_st y) <= B (p_st y) + K.
Proof using. clear. intros (ns & _ & H). lia. Qed.
End credit.
