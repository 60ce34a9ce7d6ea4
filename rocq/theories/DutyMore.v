(** More about what goroutines still have to do: without credits, and
    allowing goroutines to panic. *)
From Verif Require Import Bytes Prog Overlap ProgFacts Duty.
From Coq Require Import Lia.

Section more.
Context {St Task : Type} (start : Task -> prog St Task unit).
Context (I : St -> Prop) (R : St -> St -> Prop) (tok : Task -> St -> Prop) (cok : crash -> Prop).
Context `{!PreOrder R}.
Context (D : duty St Task -> Prop).
Notation pays := (pays I (λ _, True) R).
Notation owed := (owed I (λ _, True) R).
Notation lasting := (lasting R).
Notation pool_ok := (pool_ok I R tok cok).
Notation safe := (safe I R tok cok).

(** ** Duties stay owed *)
Lemma owed_thread d j (y : pool St Task) : lasting d -> I (p_st y) -> I (p_st (thread_step j y)) -> R (p_st y) (p_st (thread_step j y)) ->
  owed d y -> owed d (thread_step j y).
Proof using PreOrder0.
  intros Hl HI HI' HR Ho. unfold thread_step in *. destruct y as [s l ts cr]. cbn in *. destruct (l !! j) as [q|] eqn:E; [|done].
  apply list_mid in E as (l1 & l2 & -> & ->).
  destruct Ho as [H|[(q' & Hq' & Hp)|(t' & Ht' & Hp)]]; cbn in *.
  - left. destruct q as [a|x|X f k|t k]; cbn in *; auto. destruct (f s) as [s' x]. cbn in *. by eapply Hl.
  - assert (q' = q \/ q' ∈ (l1 ++ l2)%list) as [->|Hin].
    { apply elem_of_app in Hq' as [Hq'|Hq']; [right; apply elem_of_app; by left|]. apply elem_of_cons in Hq' as [->|Hq']; [by left|]. right. apply elem_of_app. by right. }
    + destruct q as [a|x|X f k|t k]; cbn in *.
      * destruct Hp as [Hp|[]]. by left.
      * destruct Hp as [Hp|[]]. by left.
      * destruct (f s) as [s' x] eqn:Ef. cbn in *. destruct Hp as [Hp|Hp]; [left; by eapply Hl|]. right; left. exists (k x).
        split; [rewrite insert_mid; apply elem_of_app; right; by left|]. specialize (Hp s (reflexivity _) HI Logic.I). rewrite Ef in Hp. by apply Hp.
      * destruct Hp as [Hp|[Hp|Hp]]; [by left| |].
        -- right; right. exists t. split; [apply elem_of_app; right; by left|done].
        -- right; left. exists k. split; [cbn; rewrite insert_mid; apply elem_of_app; right; by left|done].
    + destruct q as [a|x|X f k|t k]; cbn in *.
      * right; left. exists q'. split; [cbn; by rewrite delete_mid|done].
      * right; left. exists q'. split; [cbn; by rewrite delete_mid|done].
      * destruct (f s) as [s' x] eqn:Ef. cbn in *. right; left. exists q'. split; [|by eapply pays_lasts].
        cbn. rewrite insert_mid. apply elem_of_app in Hin as [?|?]; apply elem_of_app; [by left|right; by right].
      * right; left. exists q'. split; [|done]. cbn. rewrite insert_mid. apply elem_of_app in Hin as [?|?]; apply elem_of_app; [by left|right; by right].
  - right; right. exists t'. split; [|done]. destruct q as [a|x|X f k|t k]; cbn; auto; [by destruct (f s)|]. apply elem_of_app. by left.
Qed.

Lemma owed_fire d j (y : pool St Task) : (forall t, ~ du_task d t) -> owed d y -> owed d (task_start start j y).
Proof using.
  intros Hn Ho. unfold task_start. destruct (p_tasks y !! j) as [t|] eqn:E; [|done].
  destruct Ho as [H|[(q & Hq & Hp)|(t' & Ht' & Hp)]]; [by left| |by apply Hn in Hp].
  right; left. exists q. split; [cbn; apply elem_of_app; by left|done].
Qed.

Lemma owed_new d q (y : pool St Task) : pays d q (p_st y) -> owed d (thread_add q y).
Proof using. intros Hp. right; left. exists q. split; [cbn; apply elem_of_app; right; by left|done]. Qed.

Lemma owed_add d q (y : pool St Task) : owed d y -> owed d (thread_add q y).
Proof using. intros [H|[(q' & Hq' & Hp)|H]]; [by left| |by right; right]. right; left. exists q'. split; [cbn; apply elem_of_app; by left|done]. Qed.

Lemma owed_env d (y : pool St Task) s' : lasting d -> R (p_st y) s' -> owed d y -> owed d (mkpool s' (p_threads y) (p_tasks y) (p_crashes y)).
Proof using PreOrder0. intros Hl HR [H|[(q' & Hq' & Hp)|H]]; [left; by eapply Hl| |by right; right]. right; left. exists q'. split; [done|]. cbn. by eapply pays_lasts. Qed.

Lemma owed_quiet d (y : pool St Task) : p_threads y = [] -> p_tasks y = [] -> owed d y -> du_done d (p_st y).
Proof using. intros E1 E2 [H|[(q & Hq & _)|(t & Ht & _)]]; [done|rewrite E1 in Hq; by apply elem_of_nil in Hq|rewrite E2 in Ht; by apply elem_of_nil in Ht]. Qed.

(** ** Safety is kept *)
Context (tok_stable : forall t s s', tok t s -> R s s' -> tok t s').
Context (start_safe : forall t s, tok t s -> safe (λ _ _, True) (start t) s).

Lemma ok_thread j (y : pool St Task) : pool_ok y -> pool_ok (thread_step j y) /\ R (p_st y) (p_st (thread_step j y)).
Proof using All.
  intros H. destruct (thread_pstep start (λ _, False) (λ _ _, False) j y) as [->|Hs]; [split; [done|reflexivity]|].
  eapply (pool_step I R tok cok tok_stable start (λ _, False) (λ _ _, False)); eauto; by intros.
Qed.

Lemma ok_fire j (y : pool St Task) : pool_ok y -> pool_ok (task_start start j y) /\ p_st (task_start start j y) = p_st y.
Proof using All.
  intros (H1 & H2 & H3 & H4). unfold task_start. destruct (p_tasks y !! j) as [t|] eqn:E; [|by repeat split].
  apply list_mid in E as (l1 & l2 & E & ->). split; [|done]. split_and!; cbn; auto.
  - apply Forall_app. split; [done|]. constructor; [|done]. apply start_safe. rewrite E in H3. apply Forall_app in H3 as [_ H3]. by apply Forall_cons in H3 as [? _].
  - rewrite E in *. rewrite delete_mid. apply Forall_app in H3 as [? H3]. apply Forall_cons in H3 as [_ ?]. by apply Forall_app.
Qed.

Lemma ok_add q (y : pool St Task) : safe (λ _ _, True) q (p_st y) -> pool_ok y -> pool_ok (thread_add q y).
Proof using. intros Hq (H1 & H2 & H3 & H4). split_and!; cbn; auto. apply Forall_app. split; [done|]. by constructor. Qed.

Lemma ok_env s' (y : pool St Task) : I s' -> R (p_st y) s' -> pool_ok y -> pool_ok (mkpool s' (p_threads y) (p_tasks y) (p_crashes y)).
Proof using PreOrder0 tok_stable.
  intros HI HR (H1 & H2 & H3 & H4). split_and!; cbn; auto.
  - eapply Forall_impl; [exact H2|]. intros q Hq. cbn in *. by eapply safe_stable_T.
  - eapply Forall_impl; [exact H3|]. intros t Ht. cbn in *. by eapply tok_stable.
Qed.

(** ** Programs that do what their steps call for *)
Fixpoint dutiful {A} (p : prog St Task A) : Prop :=
  match p with
  | Ret _ | Crash _ => True
  | Act f k => (forall s, I s -> I (f s).1 -> R s (f s).1 -> forall d, D d -> du_when d (f s).1 -> du_when d s \/ pays d (k (f s).2) (f s).1) /\
      forall x, dutiful (k x)
  | Fork _ k => dutiful k
  end.

(** ... because none of them calls for anything. *)
Fixpoint calm {A} (p : prog St Task A) : Prop :=
  match p with
  | Ret _ | Crash _ => True
  | Act f k => (forall s d, D d -> du_when d (f s).1 -> du_when d s) /\ forall x, calm (k x)
  | Fork _ k => calm k
  end.

Lemma calm_dutiful {A} (p : prog St Task A) : calm p -> dutiful p.
Proof using. induction p as [a|x|X f k IH|t k IH]; cbn; auto. intros [H1 H2]. split; [eauto|]. intros x. by apply IH. Qed.

Lemma calm_bind {A B} (p : prog St Task A) (q : A -> prog St Task B) : calm p -> (forall x, calm (q x)) -> calm (pbind p q).
Proof using. intros Hp Hq. induction p as [a|x|X f k IH|t k IH]; cbn in *; auto. destruct Hp as [H1 H2]. split; [done|]. intros x. by apply IH. Qed.

Lemma dutiful_bind {A B} (p : prog St Task A) (q : A -> prog St Task B) : calm p -> (forall x, dutiful (q x)) -> dutiful (pbind p q).
Proof using.
  intros Hp Hq. induction p as [a|x|X f k IH|t k IH]; cbn in *; auto. destruct Hp as [H1 H2]. split; [eauto|]. intros x. by apply IH.
Qed.

Lemma dutiful_seq {A B} (p : prog St Task A) (q : A -> prog St Task B) : dutiful p -> (forall x, dutiful (q x)) -> dutiful (pbind p q).
Proof using.
  intros Hp Hq. induction p as [a|x|X f k IH|t k IH]; cbn in *; auto. destruct Hp as [H1 H2]. split; [|intros x; by apply IH].
  intros s A1 A2 A3 d Hd Hw. destruct (H1 s A1 A2 A3 d Hd Hw) as [?|Hp]; [by left|right]. by apply pays_first.
Qed.

Lemma calm_read {A X} (f : St -> X) (k : X -> prog St Task A) : (forall x, calm (k x)) -> calm (Act (λ s, (s, f s)) k).
Proof using. done. Qed.
Lemma dutiful_read {A X} (f : St -> X) (k : X -> prog St Task A) : (forall x, dutiful (k x)) -> dutiful (Act (λ s, (s, f s)) k).
Proof using. intros H. split; [by left|done]. Qed.

Record pool_dut (y : pool St Task) : Prop := mkpd {
  pd_ok : pool_ok y;
  pd_threads : Forall dutiful (p_threads y);
  pd_duties : forall d, D d -> du_when d (p_st y) -> owed d y
}.

Context (D_lasting : forall d, D d -> lasting d) (D_tasks : forall d t, D d -> ~ du_task d t).
Context (start_dut : forall t, dutiful (start t)).

Lemma pd_thread j (y : pool St Task) : pool_dut y -> pool_dut (thread_step j y) /\ R (p_st y) (p_st (thread_step j y)).
Proof using All.
  intros [H1 H2 H3]. destruct (ok_thread j y H1) as [H1' HR]. split; [|done].
  assert (forall d, D d -> owed d y -> owed d (thread_step j y)) as Ho.
  { intros d Hd. apply owed_thread; auto; [apply H1|apply H1']. }
  split; [done|..].
  - unfold thread_step. destruct (p_threads y !! j) as [q|] eqn:E; [|done]. apply list_mid in E as (l1 & l2 & E & ->). rewrite E in *.
    apply Forall_app in H2 as [A1 A2]. apply Forall_cons in A2 as [A2 A3]. destruct q as [a|x|X f k|t k]; cbn.
    + rewrite delete_mid. by apply Forall_app.
    + rewrite delete_mid. by apply Forall_app.
    + destruct (f (p_st y)) as [s' x]. cbn. rewrite insert_mid. apply Forall_app. split; [done|]. constructor; [apply A2|done].
    + rewrite insert_mid. apply Forall_app. split; [done|]. by constructor.
  - intros d Hd Hw. assert (du_when d (p_st y) -> owed d (thread_step j y)) as Hold by (intros; apply Ho; auto).
    destruct y as [s l ts cr]. unfold thread_step in *. cbn [p_st p_threads p_tasks p_crashes] in *.
    destruct (l !! j) as [q|] eqn:E; [|auto]. apply list_mid in E as (l1 & l2 & -> & ->).
    destruct q as [a|x|X f k|t k]; auto.
    destruct (f s) as [s' x] eqn:Ef. cbn in *. apply Forall_app in H2 as [_ A2]. apply Forall_cons in A2 as [[A2 _] _].
    specialize (A2 s). rewrite Ef in A2. cbn in A2. destruct (A2 (proj1 H1) (proj1 H1') HR d Hd Hw) as [?|Hp]; [auto|].
    right; left. exists (k x). split; [cbn; rewrite insert_mid; apply elem_of_app; right; by left|done].
Qed.

Lemma pd_fire j (y : pool St Task) : pool_dut y -> pool_dut (task_start start j y).
Proof using All.
  intros [H1 H2 H3]. destruct (ok_fire j y H1) as [H1' E]. split; [done|..].
  - unfold task_start. destruct (p_tasks y !! j); [|done]. cbn. apply Forall_app. split; [done|]. by constructor.
  - intros d Hd. rewrite E. intros Hw. apply owed_fire; [intros t; by apply D_tasks|]. by apply H3.
Qed.

Lemma pd_add q (y : pool St Task) : safe (λ _ _, True) q (p_st y) -> dutiful q -> pool_dut y -> pool_dut (thread_add q y).
Proof using.
  intros Hq Hd [H1 H2 H3]. split; [by apply ok_add|cbn; apply Forall_app; split; [done|by constructor]|]. intros d HD Hw. by apply owed_add, H3.
Qed.

Lemma pd_env s' (y : pool St Task) : I s' -> R (p_st y) s' -> (forall d, D d -> du_when d s' -> du_when d (p_st y)) ->
  pool_dut y -> pool_dut (mkpool s' (p_threads y) (p_tasks y) (p_crashes y)).
Proof using PreOrder0 tok_stable D_lasting.
  intros HI HR Hw [H1 H2 H3]. split; [by apply ok_env|done|]. intros d Hd Hw'. apply owed_env; auto.
Qed.
End more.
