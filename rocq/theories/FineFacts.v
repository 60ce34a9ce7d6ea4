(** Programs with locks behave like programs with atomic steps. *)
From Verif Require Import Bytes Prog ProgFacts Locks Fine.
From Coq Require Import Lia.
Open Scope string_scope.

(** What a goroutine holds: a read lock, a write lock, or one it has announced and waits to become free of readers. *)
Inductive mode := HR | HW | HP.
Global Instance mode_eq : EqDecision mode. Proof. solve_decision. Defined.
Notation held := (list (string * mode)).

Section sim.
Context {St Task : Type} (same : string -> St -> St -> Prop) (Hsame : forall k, Equivalence (same k)).

Definition agree (h : held) (s s' : St) : Prop := forall k, (k, HR) ∈ h \/ (k, HW) ∈ h -> same k s s'.
Definition frame (h : held) (s s' : St) : Prop := forall k, (k, HW) ∉ h -> same k s s'.

Definition commits {A} (p : prog St Task A) (s s' : St) (p' : prog St Task A) : Prop :=
  match p with Act g k => (g s).1 = s' /\ p' = k (g s).2 | _ => False end.

(** [m], holding [h] in state [s], still has to do what [p] does. *)
Fixpoint sim {A} (m : mprog St Task A) (h : held) (s : St) (p : prog St Task A) : Prop :=
  match m with
  | MRet a => h = [] /\ p = Ret a
  | MCrash w => h = [] /\ p = Crash w
  | MFork t m => exists p', p = Fork t p' /\ forall s', agree h s s' -> sim m h s' p'
  | MAct f k =>
      ((forall s', agree h s s' -> (f s').1 = s') /\ (forall s', agree h s s' -> (f s').2 = (f s).2) /\
       forall s', agree h s s' -> sim (k (f s).2) h s' p) \/
      (forall s', agree h s s' -> exists p', commits p s' (f s').1 p' /\ frame h s' (f s').1 /\ sim (k (f s').2) h (f s').1 p')
  | MSync o m =>
      match o with
      | RLock k => forall s', agree h s s' -> sim m ((k, HR) :: h) s' p
      | Lock k => forall s', agree h s s' -> sim m ((k, HW) :: h) s' p
      | Drain k => exists h', h = (k, HP) :: h' /\ forall s', agree h' s s' -> sim m ((k, HW) :: h') s' p
      | RUnlock k => exists h', h = (k, HR) :: h' /\ forall s', agree h' s s' -> sim m h' s' p
      | Unlock k => exists h', h = (k, HW) :: h' /\ forall s', agree h' s s' -> sim m h' s' p
      | _ => False
      end
  end.

Lemma agree_refl h s : agree h s s.
Proof. intros k _. reflexivity. Qed.
Lemma agree_trans h a b c : agree h a b -> agree h b c -> agree h a c.
Proof. intros H1 H2 k Hk. transitivity b; [by apply H1|by apply H2]. Qed.
Lemma agree_sym h a b : agree h a b -> agree h b a.
Proof. intros H1 k Hk. symmetry. by apply H1. Qed.
Lemma agree_sub h h' a b : agree h a b -> (forall x, x ∈ h' -> x.2 <> HP -> x ∈ h) -> agree h' a b.
Proof. intros H Hs k [Hk|Hk]; apply H; [left|right]; by apply Hs. Qed.

Lemma sim_stable {A} (m : mprog St Task A) h s s' p : sim m h s p -> agree h s s' -> sim m h s' p.
Proof.
  destruct m as [a|w|X f k|t m|o m]; cbn; intros H Ha; [done|done|..].
  - destruct H as [(H1&H2&H3)|H]; [left|right].
    + split; [intros s2 Hs2; apply H1; by eapply agree_trans|]. rewrite (H2 _ Ha). split.
      * intros s2 Hs2. apply H2. by eapply agree_trans.
      * intros s2 Hs2. apply H3. by eapply agree_trans.
    + intros s2 Hs2. apply H. by eapply agree_trans.
  - destruct H as (p'&->&H). exists p'. split; [done|]. intros s2 Hs2. apply H. by eapply agree_trans.
  - destruct o; try done.
    + intros s2 Hs2. apply H. by eapply agree_trans.
    + destruct H as (h'&->&H). exists h'. split; [done|]. intros s2 Hs2. apply H. eapply agree_trans; [|done].
      eapply agree_sub; [exact Ha|]. intros; by right.
    + intros s2 Hs2. apply H. by eapply agree_trans.
    + destruct H as (h'&->&H). exists h'. split; [done|]. intros s2 Hs2. apply H. eapply agree_trans; [|done].
      eapply agree_sub; [exact Ha|]. intros; by right.
    + destruct H as (h'&->&H). exists h'. split; [done|]. intros s2 Hs2. apply H. eapply agree_trans; [|done].
      eapply agree_sub; [exact Ha|]. intros; by right.
Qed.

(** A whole function: from every state, holding nothing before and after. *)
Definition refines {A} (m : mprog St Task A) (p : prog St Task A) : Prop := forall s, sim m [] s p.

Lemma commits_bind {A B} (p : prog St Task A) (q : A -> prog St Task B) s s' p' :
  commits p s s' p' -> commits (pbind p q) s s' (pbind p' q).
Proof. destruct p; cbn; try done. intros [H ->]. done. Qed.

Lemma sim_bind {A B} (m : mprog St Task A) (mk : A -> mprog St Task B) h s p pk :
  sim m h s p -> (forall a, refines (mk a) (pk a)) -> sim (mbind m mk) h s (pbind p pk).
Proof.
  intros H Hk. revert h s p H. induction m as [a|w|X f k IH|t m IH|o m IH]; cbn; intros h s p H.
  - destruct H as [-> ->]. apply Hk.
  - by destruct H as [-> ->].
  - destruct H as [(H1&H2&H3)|H]; [left|right].
    + split; [done|]. split; [done|]. intros s' Hs'. by apply IH, H3.
    + intros s' Hs'. destruct (H s' Hs') as (p'&Hp&Hf&Hs). exists (pbind p' pk). split; [by apply commits_bind|]. split; [done|]. by apply IH.
  - destruct H as (p'&->&H). exists (pbind p' pk). split; [done|]. intros. by apply IH, H.
  - destruct o; try done.
    + intros. by apply IH, H.
    + destruct H as (h'&->&H). exists h'. split; [done|]. intros. by apply IH, H.
    + intros. by apply IH, H.
    + destruct H as (h'&->&H). exists h'. split; [done|]. intros. by apply IH, H.
    + destruct H as (h'&->&H). exists h'. split; [done|]. intros. by apply IH, H.
Qed.

Lemma ref_bind {A B} (m : mprog St Task A) (mk : A -> mprog St Task B) p pk :
  refines m p -> (forall a, refines (mk a) (pk a)) -> refines (mbind m mk) (pbind p pk).
Proof. intros H Hk s. by apply sim_bind. Qed.
Lemma ref_ret {A} (a : A) : refines (MRet a) (Ret a).
Proof. done. Qed.
Lemma ref_crash {A} w : refines (MCrash (A := A) w) (Crash w).
Proof. done. Qed.
Lemma ref_fork t : refines (mfork t) (pfork t).
Proof. intros s. cbn. eauto. Qed.
Lemma ref_when b m p : refines m p -> refines (mwhen b m) (pwhen b p).
Proof. by destruct b. Qed.
(** A single access outside the tables that locks protect. *)
Lemma ref_read {X} (f : St -> X) : refines (mread f) (pread f).
Proof. intros s. cbn. right. intros s' _. eexists. split; [split; reflexivity|]. split; [intros k _; reflexivity|done]. Qed.
Lemma ref_modify (f : St -> St) : (forall k s, same k s (f s)) -> refines (mmodify f) (pmodify f).
Proof. intros Hf s. cbn. right. intros s' _. eexists. split; [split; reflexivity|]. split; [intros k _; apply Hf|done]. Qed.

(* ---------------------------------------------------------------- *)
(** * The machine *)

Context (fstart : Task -> mprog St Task unit) (freq : mprog St Task unit -> Prop).
Context (start : Task -> prog St Task unit) (req : prog St Task unit -> Prop) (env : St -> St -> Prop).
Hypothesis Hstart : forall t, refines (fstart t) (start t).
Hypothesis Hreq : forall m, freq m -> exists p, req p /\ refines m p.
Hypothesis Henv : forall s s' k, env s s' -> same k s s'.

Definition num (x : string * mode) (hs : list held) : nat := length (filter (λ y, y = x) (concat hs)).
Lemma num_app x a b : num x (a ++ b) = num x a + num x b.
Proof. unfold num. by rewrite concat_app, filter_app, app_length. Qed.
Lemma num_one x h : num x [h] = length (filter (λ y, y = x) h).
Proof. unfold num. cbn. by rewrite app_nil_r. Qed.
Lemma num_mid x a h b : num x (a ++ h :: b) = num x a + length (filter (λ y, y = x) h) + num x b.
Proof. rewrite (num_app x a (h :: b)). change (h :: b) with ([h] ++ b)%list. rewrite num_app, num_one. lia. Qed.
Lemma len_cons x y (h : held) : length (filter (λ z, z = x) (y :: h)) = (if decide (y = x) then 1 else 0) + length (filter (λ z, z = x) h).
Proof. rewrite filter_cons. by destruct (decide (y = x)). Qed.
Lemma len_elem x (h : held) : x ∈ h -> 1 <= length (filter (λ z, z = x) h).
Proof.
  intros H. assert (x ∈ filter (λ z, z = x) h) as H' by by apply elem_of_list_filter.
  destruct (filter _ h); [by apply elem_of_nil in H'|cbn; lia].
Qed.
Lemma num_elem x h hs : x ∈ h -> h ∈ hs -> 1 <= num x hs.
Proof. intros H1 H2. apply elem_of_list_split in H2 as (a&b&->). rewrite num_mid. pose proof (len_elem x h H1). lia. Qed.

Definition locks_ok (L : gmap string rw) (hs : list held) : Prop := forall k,
  rw_readers (lock_at L k) = num (k, HR) hs /\
  (if rw_writer (lock_at L k) then 1 else 0) = num (k, HW) hs + num (k, HP) hs /\
  (1 <= num (k, HW) hs -> num (k, HR) hs = 0).

(** The pools correspond, goroutine by goroutine. *)
Definition related (c : fpool St Task) (c' : pool St Task) : Prop :=
  f_st c = p_st c' /\ f_tasks c = p_tasks c' /\ f_crashes c = p_crashes c' /\ f_dead c = false /\
  exists hs, locks_ok (f_locks c) hs /\ Forall3 (λ m h p, sim m h (f_st c) p) (f_threads c) hs (p_threads c').

Lemma lock_at_insert L k r k' : lock_at (<[k := r]> L) k' = if decide (k = k') then r else lock_at L k'.
Proof. unfold lock_at. destruct (decide (k = k')) as [->|]; [by rewrite lookup_insert|by rewrite lookup_insert_ne]. Qed.

(** What another goroutine relies on does not change. *)
Lemma others L a h b hj s s' : locks_ok L (a ++ h :: b) -> hj ∈ (a ++ b)%list -> frame h s s' -> agree hj s s'.
Proof.
  intros HL Hj Hf k Hk. apply Hf. intros Hw. destruct (HL k) as (_&H2&H3).
  rewrite !num_mid in H2, H3. pose proof (len_elem _ _ Hw).
  apply elem_of_list_split in Hj as (u&v&E).
  assert (forall x, num x (a ++ b) = num x a + num x b) as Hn by (intros; apply num_app).
  pose proof (Hn (k, HR)) as N1. pose proof (Hn (k, HW)) as N2. rewrite E in N1, N2. rewrite num_mid in N1, N2.
  destruct Hk as [Hk|Hk]; pose proof (len_elem _ _ Hk); destruct (rw_writer (lock_at L k)); lia.
Qed.

Lemma F3_stable (s s' : St) ms hs (ps : list (prog St Task unit)) : Forall3 (λ m h p, sim m h s p) ms hs ps ->
  (forall h, h ∈ hs -> agree h s s') -> Forall3 (λ m h p, sim m h s' p) ms hs ps.
Proof.
  induction 1 as [|m h p ms hs ps H1 H2 IH]; intros H; constructor.
  - eapply sim_stable; [done|]. apply H. left.
  - apply IH. intros h' Hh'. apply H. by right.
Qed.

Ltac counts HL k0 :=
  intros k0; destruct (HL k0) as (H1&H2&H3); rewrite ?num_mid, ?len_cons in *; rewrite ?lock_at_insert;
  repeat (case_decide; simplify_eq); cbn [rw_readers rw_writer] in *; repeat case_match; try done; repeat split; intros; try lia.

Lemma ok_rlock L k a h b : locks_ok L (a ++ h :: b) -> rw_writer (lock_at L k) = false ->
  locks_ok (<[k := mkrw false (S (rw_readers (lock_at L k)))]> L) (a ++ ((k, HR) :: h) :: b).
Proof. intros HL Hw. counts HL k0. Qed.
Lemma ok_lock L k a h b : locks_ok L (a ++ h :: b) -> rw_writer (lock_at L k) = false ->
  locks_ok (<[k := mkrw true (rw_readers (lock_at L k))]> L) (a ++ ((k, HP) :: h) :: b).
Proof. intros HL Hw. counts HL k0. Qed.
Lemma ok_drain L k a h b : locks_ok L (a ++ ((k, HP) :: h) :: b) -> rw_readers (lock_at L k) = 0 ->
  locks_ok L (a ++ ((k, HW) :: h) :: b).
Proof. intros HL Hw. counts HL k0. Qed.
Lemma ok_unlock L k a h b : locks_ok L (a ++ ((k, HW) :: h) :: b) ->
  rw_writer (lock_at L k) = true /\ locks_ok (<[k := mkrw false (rw_readers (lock_at L k))]> L) (a ++ h :: b).
Proof.
  intros HL. split.
  - destruct (HL k) as (_&H2&_). rewrite !num_mid, !len_cons in H2. rewrite decide_True in H2 by done. destruct (rw_writer (lock_at L k)); [done|lia].
  - counts HL k0.
Qed.
Lemma ok_runlock L k a h b : locks_ok L (a ++ ((k, HR) :: h) :: b) ->
  exists n, rw_readers (lock_at L k) = S n /\ locks_ok (<[k := mkrw (rw_writer (lock_at L k)) n]> L) (a ++ h :: b).
Proof.
  intros HL. assert (exists n, rw_readers (lock_at L k) = S n) as [n Hn].
  { destruct (HL k) as (H1&_&_). rewrite num_mid, len_cons, decide_True in H1 by done. rewrite H1. eexists. by rewrite <- plus_n_Sm. }
  exists n. split; [done|]. counts HL k0.
Qed.
Lemma ok_nil L a b : locks_ok L (a ++ [] :: b) -> locks_ok L (a ++ b).
Proof. intros HL k0. specialize (HL k0). rewrite !num_mid in HL. rewrite !num_app. cbn in HL. rewrite !Nat.add_0_r in HL. exact HL. Qed.
Lemma ok_new L a : locks_ok L a -> locks_ok L (a ++ [[]]).
Proof. intros HL k0. specialize (HL k0). rewrite !num_app, !num_one. cbn. rewrite !Nat.add_0_r. exact HL. Qed.

Lemma F3_mid {A B C} (R : A -> B -> C -> Prop) l1 x l2 hs ps : Forall3 R (l1 ++ x :: l2) hs ps ->
  exists h1 h h2 p1 p p2, hs = (h1 ++ h :: h2)%list /\ ps = (p1 ++ p :: p2)%list /\ Forall3 R l1 h1 p1 /\ R x h p /\ Forall3 R l2 h2 p2.
Proof.
  intros H. apply Forall3_app_inv_l in H as (h1&h2&p1&p2&->&->&H1&H2).
  inversion H2; subst. exists h1, y, k, p1, z, k'. done.
Qed.
Lemma F3_glue {A B C} (R : A -> B -> C -> Prop) l1 x l2 h1 h h2 p1 p p2 : Forall3 R l1 h1 p1 -> R x h p -> Forall3 R l2 h2 p2 ->
  Forall3 R (l1 ++ x :: l2) (h1 ++ h :: h2) (p1 ++ p :: p2).
Proof. intros. apply Forall3_app; [done|]. by constructor. Qed.

Lemma commits_step p s s' p' p1 p2 ts cr : commits p s s' p' ->
  pstep start req env (mkpool s (p1 ++ p :: p2) ts cr) (mkpool s' (p1 ++ p' :: p2) ts cr).
Proof. destruct p; cbn; try done. intros [<- ->]. constructor. by destruct (f s). Qed.

Lemma one_step c c1 c2 : psteps start req env c c1 -> pstep start req env c1 c2 -> psteps start req env c c2.
Proof. intros. by econstructor. Qed.

(** One step is matched by one step or none. *)
Lemma sim_step1 c1 c2 a1 : related c1 a1 -> fstep fstart freq env c1 c2 -> exists a2, (a2 = a1 \/ pstep start req env a1 a2) /\ related c2 a2.
Proof.
  intros (Es&Et&Ec&Ed&hs&HL&HF) Hstep. destruct a1 as [sa pa ta ca]. cbn in Es, Et, Ec. subst sa ta ca.
  destruct Hstep as [s L l1 X f k l2 ts cr|s L l1 o k l2 ts cr L' more He|s L l1 o k l2 ts cr He|s L l1 t k l2 ts cr|s L l1 a l2 ts cr|s L l1 w l2 ts cr|s L l ts1 t ts2 cr|s L l ts cr p Hp|s s' L l ts cr He]; cbn in *.
  - apply F3_mid in HF as (h1&h&h2&p1&p&p2&->&->&F1&Fm&F2). destruct Fm as [(R1&R2&R3)|Hc].
    + eexists. split; [by left|]. rewrite (R1 s (agree_refl h s)). repeat split; try done. exists (h1 ++ h :: h2)%list. split; [done|].
      cbn. apply F3_glue; [done| |done]. apply R3. by apply agree_refl.
    + destruct (Hc s (agree_refl h s)) as (p'&Hp&Hf&Hs). eexists. split; [right; (by apply commits_step)|].
      repeat split; try done. exists (h1 ++ h :: h2)%list. split; [done|]. cbn.
      apply F3_glue; [| done|].
      * eapply F3_stable; [exact F1|]. intros hj Hj. eapply others; [exact HL| |exact Hf]. apply elem_of_app. by left.
      * eapply F3_stable; [exact F2|]. intros hj Hj. eapply others; [exact HL| |exact Hf]. apply elem_of_app. by right.
  - apply F3_mid in HF as (h1&h&h2&p1&p&p2&->&->&F1&Fm&F2).
    eexists. split; [by left|]. repeat split; try done. cbn.
    destruct o as [q|q|q|q|q|q|q|q]; try done; cbn in He, Fm.
    + destruct (rw_writer (lock_at L q)) eqn:Ew; [done|]. simplify_eq. exists (h1 ++ ((q, HP) :: h) :: h2)%list.
      split; [by apply ok_lock|]. apply F3_glue; [done| |done]. cbn. eauto.
    + destruct Fm as (h'&->&Fm). destruct (ok_unlock _ _ _ _ _ HL) as [Ew HL']. rewrite Ew in He. simplify_eq.
      exists (h1 ++ h' :: h2)%list. split; [done|]. apply F3_glue; [done| |done]. apply Fm, agree_refl.
    + destruct (rw_writer (lock_at L q)) eqn:Ew; [done|]. simplify_eq. exists (h1 ++ ((q, HR) :: h) :: h2)%list.
      split; [by apply ok_rlock|]. apply F3_glue; [done| |done]. apply Fm, agree_refl.
    + destruct Fm as (h'&->&Fm). destruct (ok_runlock _ _ _ _ _ HL) as (n&En&HL'). rewrite En in He. simplify_eq.
      exists (h1 ++ h' :: h2)%list. split; [done|]. apply F3_glue; [done| |done]. apply Fm, agree_refl.
    + destruct Fm as (h'&->&Fm). destruct (rw_readers (lock_at L q)) eqn:En; [|done]. simplify_eq.
      exists (h1 ++ ((q, HW) :: h') :: h2)%list. split; [by apply ok_drain|]. apply F3_glue; [done| |done]. apply Fm, agree_refl.
  - apply F3_mid in HF as (h1&h&h2&p1&p&p2&->&->&F1&Fm&F2). exfalso.
    destruct o as [q|q|q|q|q|q|q|q]; try done; cbn in He, Fm.
    + by destruct (rw_writer (lock_at L q)).
    + destruct Fm as (h'&->&Fm). destruct (ok_unlock _ _ _ _ _ HL) as [Ew HL']. by rewrite Ew in He.
    + by destruct (rw_writer (lock_at L q)).
    + destruct Fm as (h'&->&Fm). destruct (ok_runlock _ _ _ _ _ HL) as (n&En&HL'). by rewrite En in He.
    + by destruct (rw_readers (lock_at L q)).
  - apply F3_mid in HF as (h1&h&h2&p1&p&p2&->&->&F1&Fm&F2). destruct Fm as (p'&->&Fm).
    eexists. split; [right; (apply step_fork)|]. repeat split; try done. exists (h1 ++ h :: h2)%list. split; [done|].
    cbn. apply F3_glue; [done| |done]. apply Fm, agree_refl.
  - apply F3_mid in HF as (h1&h&h2&p1&p&p2&->&->&F1&Fm&F2). destruct Fm as [-> ->].
    eexists. split; [right; (apply step_ret)|]. repeat split; try done. exists (h1 ++ h2)%list.
    split; [by apply ok_nil|]. cbn. by apply Forall3_app.
  - apply F3_mid in HF as (h1&h&h2&p1&p&p2&->&->&F1&Fm&F2). destruct Fm as [-> ->].
    eexists. split; [right; (apply step_crash)|]. repeat split; try done. exists (h1 ++ h2)%list.
    split; [by apply ok_nil|]. cbn. by apply Forall3_app.
  - eexists. split; [right; (apply step_start)|]. repeat split; try done. exists (hs ++ [[]])%list.
    split; [by apply ok_new|]. cbn. apply Forall3_app; [done|]. constructor; [apply Hstart|constructor].
  - destruct (Hreq p Hp) as (p'&Hr&Hs). eexists. split; [right; (by apply (step_req _ _ _ _ _ _ _ p'))|].
    repeat split; try done. exists (hs ++ [[]])%list.
    split; [by apply ok_new|]. cbn. apply Forall3_app; [done|]. constructor; [apply Hs|constructor].
  - eexists. split; [right; (by apply (step_env _ _ _ _ s'))|].
    repeat split; try done. exists hs. split; [done|]. cbn. eapply F3_stable; [done|]. intros h Hh k _. by apply Henv.
Qed.
Lemma sim_step c1 c2 a1 : related c1 a1 -> fstep fstart freq env c1 c2 -> exists a2, psteps start req env a1 a2 /\ related c2 a2.
Proof.
  intros Hr Hs. destruct (sim_step1 _ _ _ Hr Hs) as (a2&[->|H]&Hr2); (eexists; split; [|exact Hr2]); [constructor|].
  eapply one_step; [constructor|done].
Qed.

Theorem simulation c1 c2 a1 : related c1 a1 -> fsteps fstart freq env c1 c2 -> exists a2, psteps start req env a1 a2 /\ related c2 a2.
Proof.
  intros Hr Hs. revert a1 Hr. induction Hs as [c|c1 c2 c3 Hs IH Hst]; intros a1 Hr.
  - exists a1. split; [constructor|done].
  - destruct (IH a1 Hr) as (a2&H2&Hr2). destruct (sim_step _ _ _ Hr2 Hst) as (a3&H3&Hr3). exists a3. split; [by eapply psteps_app|done].
Qed.

(** A new goroutine on both sides; a change of the environment on both sides. *)
Lemma related_add c a m q : related c a -> refines m q ->
  related (mkfpool (f_st c) (f_locks c) (f_threads c ++ [m]) (f_tasks c) (f_crashes c) (f_dead c)) (mkpool (p_st a) (p_threads a ++ [q]) (p_tasks a) (p_crashes a)).
Proof.
  intros (Es&Et&Ec&Ed&hs&HL&HF) H. repeat split; try done. exists (hs ++ [[]])%list. split; [by apply ok_new|]. cbn.
  apply Forall3_app; [done|]. constructor; [apply H|constructor].
Qed.
Lemma related_env c a s : related c a -> (forall k, same k (f_st c) s) ->
  related (mkfpool s (f_locks c) (f_threads c) (f_tasks c) (f_crashes c) (f_dead c)) (mkpool s (p_threads a) (p_tasks a) (p_crashes a)).
Proof.
  intros (Es&Et&Ec&Ed&hs&HL&HF) H. repeat split; try done. exists hs. split; [done|]. cbn.
  eapply F3_stable; [done|]. intros h Hh k _. apply H.
Qed.

Lemma related_new s : related (mkfpool s ∅ [] [] [] false) (mkpool s [] [] []).
Proof.
  repeat split; try done. exists []. split; [|constructor]. intros k. unfold lock_at. cbn. rewrite lookup_empty. cbn. unfold num. cbn. lia.
Qed.
End sim.
