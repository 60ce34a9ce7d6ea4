(** A discipline for using locks, and what follows from it. *)
From Verif Require Import Bytes Locks SpecLocks.
From Coq Require Import Lia.
Open Scope string_scope.

(** How a map is protected: by a lock, by never being changed, or not at all. *)
Inductive protection := By (k : string) | ReadOnly | Unchecked.

Notation hold := (string * bool)%type.
Definition above (rank : string -> nat) (H : list hold) (k : string) : bool := forallb (λ h, rank h.1 <? rank k)%nat H.
Definition has (h : hold) (H : list hold) : bool := bool_decide (h ∈ H).
Definition drop1 (h : hold) (H : list hold) : list hold := List.filter (λ x, negb (bool_decide (x = h))) H.

(** [H] are the locks held ([true]: for writing).  Locks are taken in the order of their ranks and released; guarded maps are accessed while holding the lock. *)
Fixpoint disciplined (G : string -> protection) (rank : string -> nat) (H : list hold) (ops : list op) : bool :=
  match ops with
  | [] => match H with [] => true | _ => false end
  | Lock k :: r => above rank H k && disciplined G rank ((k, true) :: H) r
  | RLock k :: r => above rank H k && disciplined G rank ((k, false) :: H) r
  | Unlock k :: r => has (k, true) H && disciplined G rank (drop1 (k, true) H) r
  | RUnlock k :: r => has (k, false) H && disciplined G rank (drop1 (k, false) H) r
  | Read m :: r => match G m with By k => has (k, true) H || has (k, false) H | _ => true end && disciplined G rank H r
  | Write m :: r => match G m with By k => has (k, true) H | ReadOnly => false | Unchecked => true end && disciplined G rank H r
  | Drain _ :: _ | Replace _ :: _ => false
  end.

Lemma disciplined_app G rank H a b : disciplined G rank H a = true -> disciplined G rank [] b = true -> disciplined G rank H (a ++ b) = true.
Proof.
  revert H. induction a as [|o a IH]; intros H Ha Hb; [destruct H; [exact Hb|discriminate]|].
  destruct o; cbn [disciplined app] in *; try discriminate; apply andb_true_iff in Ha as [-> Ha]; cbn; by apply IH.
Qed.
Lemma disciplined_concat {A} G rank (f : A -> list op) l : (forall a, a ∈ l -> disciplined G rank [] (f a) = true) -> disciplined G rank [] (concat (map f l)) = true.
Proof.
  induction l as [|a l IH]; intros Hl; [reflexivity|]. cbn [map concat]. apply disciplined_app; [apply Hl; by left|]. apply IH. intros b Hb. apply Hl. by right.
Qed.

Section invariant.
Context (G : string -> protection) (rank : string -> nat).

(** A goroutine: what it holds and what it still does. *)
Notation thr := (list hold * list op)%type.
Definition waits (k : string) (t : thr) : nat := match t.2 with Drain k' :: _ => if String.eqb k k' then 1 else 0 | _ => 0 end.
Definition cnt (h : hold) (t : thr) : nat := length (List.filter (λ x, bool_decide (x = h)) t.1).
Definition thr_ok (t : thr) : Prop :=
  match t.2 with
  | Drain k :: r => above rank t.1 k = true /\ disciplined G rank ((k, true) :: t.1) r = true
  | ops => disciplined G rank t.1 ops = true
  end.
Fixpoint total (f : thr -> nat) (l : list thr) : nat := match l with [] => 0 | t :: r => f t + total f r end.

Local Arguments cnt : simpl never.
Local Arguments waits : simpl never.
Local Arguments thr_ok : simpl never.
Record inv (c : proc) (l : list thr) : Prop := {
  in_alive : pr_dead c = false;
  in_threads : pr_threads c = map snd l;
  in_ok : forall t, t ∈ l -> thr_ok t /\ NoDup (map fst t.1);
  in_readers : forall k, rw_readers (lock_at (pr_locks c) k) = total (cnt (k, false)) l;
  in_writer : forall k, (if rw_writer (lock_at (pr_locks c) k) then 1 else 0) = total (λ t, cnt (k, true) t + waits k t) l;
  in_excl : forall k t, t ∈ l -> (k, true) ∈ t.1 -> rw_readers (lock_at (pr_locks c) k) = 0
}.

Lemma total_app f l l' : total f (l ++ l') = total f l + total f l'.
Proof. induction l as [|a l IH]; cbn; [done|]. rewrite IH. lia. Qed.
Lemma total_insert f l i (x y : thr) : l !! i = Some x -> total f (<[i := y]> l) + f x = total f l + f y.
Proof.
  revert i. induction l as [|a l IH]; intros [|i] Hi; try discriminate.
  - injection Hi as ->. change (<[0 := y]> (x :: l)) with (y :: l). cbn. lia.
  - cbn in Hi. specialize (IH i Hi). change (<[S i := y]> (a :: l)) with (a :: <[i := y]> l). cbn. lia.
Qed.
Lemma total_in f l (t : thr) : t ∈ l -> f t <= total f l.
Proof.
  induction l as [|a l IH]; intros Ht; [by apply elem_of_nil in Ht|]. cbn. apply elem_of_cons in Ht as [->|Ht]; [lia|]. specialize (IH Ht). lia.
Qed.
Lemma total_pos f l : 0 < total f l -> exists t, t ∈ l /\ 0 < f t.
Proof.
  induction l as [|a l IH]; intros H; cbn in H; [lia|]. destruct (f a) eqn:E.
  - destruct IH as (t & Ht & H'); [lia|]. exists t. split; [by right|done].
  - exists a. split; [by left|lia].
Qed.
Lemma total_two f l i j (s t : thr) : i <> j -> l !! i = Some s -> l !! j = Some t -> f s + f t <= total f l.
Proof.
  revert i j. induction l as [|a l IH]; intros [|i] [|j] Hn Hi Hj; try discriminate; try done.
  - injection Hi as ->. cbn in Hj. apply elem_of_list_lookup_2, (total_in f) in Hj. cbn. lia.
  - injection Hj as ->. cbn in Hi. apply elem_of_list_lookup_2, (total_in f) in Hi. cbn. lia.
  - specialize (IH i j ltac:(congruence) Hi Hj). cbn. lia.
Qed.

Lemma cnt_pos h (t : thr) : 0 < cnt h t <-> h ∈ t.1.
Proof.
  unfold cnt. destruct t as [H ops]. cbn. induction H as [|x H IH]; cbn; [split; [lia|intros E; by apply elem_of_nil in E]|].
  rewrite elem_of_cons. case_bool_decide as E; cbn; [split; [by left|lia]|]. rewrite IH. split; [by right|intros [->|]; done].
Qed.
Lemma cnt_cons h x H ops ops' : cnt h (x :: H, ops) = (if bool_decide (x = h) then 1 else 0) + cnt h (H, ops').
Proof. unfold cnt. cbn. by case_bool_decide. Qed.
Lemma cnt_ops h H ops ops' : cnt h (H, ops) = cnt h (H, ops').
Proof. reflexivity. Qed.
Lemma drop1_in x h H : x ∈ drop1 h H <-> x ∈ H /\ x <> h.
Proof. unfold drop1. rewrite elem_of_list_In, filter_In, <- elem_of_list_In. by rewrite negb_true_iff, bool_decide_eq_false. Qed.
Lemma drop1_nodup h H : NoDup (map fst H) -> NoDup (map fst (drop1 h H)).
Proof.
  induction H as [|x H IH]; cbn; [done|]. intros [Hx Hn]%NoDup_cons. case_bool_decide; cbn; [by apply IH|]. apply NoDup_cons. split; [|by apply IH].
  rewrite elem_of_list_fmap. intros (y & E & Hy). apply Hx. apply elem_of_list_fmap. exists y. split; [done|]. by apply drop1_in in Hy as [? _].
Qed.
Lemma cnt_drop h H ops ops' : NoDup (map fst H) -> h ∈ H -> forall x, cnt x (drop1 h H, ops) + (if bool_decide (x = h) then 1 else 0) = cnt x (H, ops').
Proof.
  intros Hn Hh x. unfold cnt. cbn. induction H as [|y H IH]; [by apply elem_of_nil in Hh|]. cbn in Hn. apply NoDup_cons in Hn as [Hy Hn]. cbn.
  assert (h ∈ H -> y <> h) as Hyh by (intros Hin ->; apply Hy; apply elem_of_list_fmap; by exists h).
  assert (h ∉ H -> drop1 h H = H) as Hd.
  { clear. unfold drop1. induction H as [|z H IH]; [done|]. intros Hz. cbn. rewrite not_elem_of_cons in Hz. destruct Hz as [Hz1 Hz2]. rewrite bool_decide_eq_false_2 by congruence. cbn. by rewrite IH. }
  unfold drop1 in Hd. apply elem_of_cons in Hh as [<-|Hh].
  - rewrite bool_decide_eq_true_2 by done. cbn. assert (h ∉ H) as Hnin by (intros Hin; by destruct (Hyh Hin)). rewrite Hd by done.
    case_bool_decide; cbn; case_bool_decide; try congruence; cbn; lia.
  - rewrite bool_decide_eq_false_2 by auto. cbn. specialize (IH Hn Hh). unfold drop1 in IH. destruct (bool_decide (x = h)); case_bool_decide; cbn in *; lia.
Qed.

Lemma lock_at_eq L k v : lock_at (<[k := v]> L) k = v.
Proof. unfold lock_at. by rewrite lookup_insert. Qed.
Lemma lock_at_ne L k k' v : k <> k' -> lock_at (<[k := v]> L) k' = lock_at L k'.
Proof. intros. unfold lock_at. by rewrite lookup_insert_ne. Qed.

Lemma above_fresh H k b : above rank H k = true -> (k, b) ∈ H -> False.
Proof. unfold above. rewrite forallb_forall. intros Ha Hk. apply elem_of_list_In, Ha in Hk. cbn in Hk. apply Nat.ltb_lt in Hk. lia. Qed.
Lemma above_nodup H k b : above rank H k = true -> NoDup (map fst H) -> NoDup (map fst ((k, b) :: H)).
Proof.
  intros Ha Hn. cbn. apply NoDup_cons. split; [|done]. rewrite elem_of_list_fmap. intros ([k' b'] & E & Hk). cbn in E. subst k'. by apply (above_fresh H k b').
Qed.

(** What the next step is, by the discipline. *)
Lemma thr_ok_ops H ops : thr_ok (H, ops) -> (exists k r, ops = Drain k :: r /\ above rank H k = true /\ disciplined G rank ((k, true) :: H) r = true) \/ (disciplined G rank H ops = true /\ forall k, waits k (H, ops) = 0).
Proof. unfold thr_ok, waits. cbn. destruct ops as [|[] r]; eauto 8. Qed.
Lemma no_drain H r k : disciplined G rank H r = true -> waits k (H, r) = 0.
Proof. unfold waits. cbn. by destruct r as [|[] r]. Qed.
Lemma ok_no_drain H r : disciplined G rank H r = true -> thr_ok (H, r).
Proof. unfold thr_ok. cbn. by destruct r as [|[] r]. Qed.

(** Goroutine [i] changes from [x] to [y], lock [k] from [v] to [v']. *)
Lemma inv_update c l i x y k v' : inv c l -> l !! i = Some x -> thr_ok y -> NoDup (map fst y.1) ->
  (forall k', k' <> k -> cnt (k', false) y = cnt (k', false) x /\ cnt (k', true) y = cnt (k', true) x /\ waits k' y = waits k' x) ->
  rw_readers v' + cnt (k, false) x = rw_readers (lock_at (pr_locks c) k) + cnt (k, false) y ->
  (if rw_writer v' then 1 else 0) + (cnt (k, true) x + waits k x) = (if rw_writer (lock_at (pr_locks c) k) then 1 else 0) + (cnt (k, true) y + waits k y) ->
  (forall j t, j <> i -> l !! j = Some t -> (k, true) ∈ t.1 -> rw_readers v' = 0) -> ((k, true) ∈ y.1 -> rw_readers v' = 0) ->
  inv (mkproc (<[k := v']> (pr_locks c)) (<[i := y.2]> (pr_threads c)) false) (<[i := y]> l).
Proof.
  intros [H1 H2 H3 H4 H5 H6] Hi Hy Hn Hk Hr Hw He He'. split; cbn.
  - done.
  - rewrite H2. symmetry. apply list_fmap_insert.
  - intros t Ht. apply elem_of_list_lookup in Ht as [j Hj]. apply list_lookup_insert_Some in Hj as [(-> & <- & _)|(_ & Hj)]; [done|]. apply H3. by apply elem_of_list_lookup_2 in Hj.
  - intros k'. pose proof (total_insert (cnt (k', false)) l i x y Hi) as E. destruct (decide (k' = k)) as [->|Hne].
    + rewrite lock_at_eq. rewrite (H4 k) in Hr. lia.
    + rewrite lock_at_ne by done. destruct (Hk k' Hne) as (E1 & _ & _). rewrite H4. lia.
  - intros k'. pose proof (total_insert (λ t, cnt (k', true) t + waits k' t) l i x y Hi) as E. cbn beta in E. destruct (decide (k' = k)) as [->|Hne].
    + rewrite lock_at_eq. rewrite (H5 k) in Hw. lia.
    + rewrite lock_at_ne by done. destruct (Hk k' Hne) as (_ & E1 & E2). rewrite H5. lia.
  - intros k' t Ht Hkt. apply elem_of_list_lookup in Ht as [j Hj]. destruct (decide (k' = k)) as [->|Hne].
    + rewrite lock_at_eq. apply list_lookup_insert_Some in Hj as [(-> & <- & _)|(Hji & Hj)]; [by apply He'|]. exact (He j t (not_eq_sym Hji) Hj Hkt).
    + rewrite lock_at_ne by done. apply list_lookup_insert_Some in Hj as [(-> & <- & _)|(_ & Hj)]; [|by apply elem_of_list_lookup_2 in Hj; eapply H6].
      destruct (Hk k' Hne) as (_ & E1 & _). apply (H6 k' x); [by apply elem_of_list_lookup_2 in Hi|]. apply cnt_pos. rewrite <- E1. by apply cnt_pos.
Qed.
(** The same without a change of a lock. *)
Lemma inv_update0 c l i x y : inv c l -> l !! i = Some x -> thr_ok y -> NoDup (map fst y.1) ->
  (forall k, cnt (k, false) y = cnt (k, false) x /\ cnt (k, true) y + waits k y = cnt (k, true) x + waits k x) ->
  (forall k, (k, true) ∈ y.1 -> rw_readers (lock_at (pr_locks c) k) = 0) ->
  inv (mkproc (pr_locks c) (<[i := y.2]> (pr_threads c)) false) (<[i := y]> l).
Proof.
  intros [H1 H2 H3 H4 H5 H6] Hi Hy Hn Hk He. split; cbn.
  - done.
  - rewrite H2. symmetry. apply list_fmap_insert.
  - intros t Ht. apply elem_of_list_lookup in Ht as [j Hj]. apply list_lookup_insert_Some in Hj as [(-> & <- & _)|(_ & Hj)]; [done|]. apply H3. by apply elem_of_list_lookup_2 in Hj.
  - intros k. pose proof (total_insert (cnt (k, false)) l i x y Hi) as E. destruct (Hk k) as [E1 _]. rewrite H4. lia.
  - intros k. pose proof (total_insert (λ t, cnt (k, true) t + waits k t) l i x y Hi) as E. cbn beta in E. destruct (Hk k) as [_ E1]. rewrite H5. lia.
  - intros k t Ht Hkt. apply elem_of_list_lookup in Ht as [j Hj]. apply list_lookup_insert_Some in Hj as [(-> & <- & _)|(_ & Hj)]; [by apply He|]. apply elem_of_list_lookup_2 in Hj. by apply (H6 k t).
Qed.

Lemma waits_ne k k' H r : k <> k' -> waits k (H, Drain k' :: r) = 0.
Proof. unfold waits. cbn. intros Hn. by rewrite (proj2 (String.eqb_neq k k')). Qed.
Lemma waits_eq k H r : waits k (H, Drain k :: r) = 1.
Proof. unfold waits. cbn. by rewrite String.eqb_refl. Qed.
Lemma bd_pair (k k' : string) (b b' : bool) : bool_decide ((k, b) = (k', b')) = bool_decide (k = k') && bool_decide (b = b').
Proof. repeat case_bool_decide; cbn; congruence. Qed.

(** The invariant is kept, and the next step of a goroutine never is fatal. *)
Lemma inv_go c l i : inv c l -> exists l', inv (lstep c (Go i)) l'.
Proof.
  intros I. unfold lstep. rewrite (in_alive _ _ I). destruct (pr_threads c !! i) as [[|o r]|] eqn:Ei; try by exists l.
  rewrite (in_threads _ _ I), list_lookup_fmap in Ei. destruct (l !! i) as [[H ops]|] eqn:Hi; [|done]. cbn in Ei. injection Ei as ->.
  destruct (in_ok _ _ I _ (elem_of_list_lookup_2 _ _ _ Hi)) as [Hok Hnd]. cbn in Hnd.
  destruct (thr_ok_ops _ _ Hok) as [(k & r' & E & Ha & Hd)|[Hd Hw]].
  - injection E as -> ->. cbn [exec]. destruct (rw_readers (lock_at (pr_locks c) k)) eqn:Er; [|by exists l].
    eexists. apply (inv_update0 c l i (H, Drain k :: r') ((k, true) :: H, r')); cbn; auto.
    + by apply ok_no_drain.
    + by apply (above_nodup H k true).
    + intros k'. rewrite !(cnt_cons _ _ _ _ (Drain k :: r')). split; [by rewrite bd_pair, andb_false_r|]. rewrite (no_drain _ _ _ Hd). rewrite bd_pair, (bool_decide_eq_true_2 (true = true)), andb_true_r by done.
      case_bool_decide as E; [subst k'; rewrite waits_eq|rewrite waits_ne by done]; lia.
    + intros k' [E|Hk']%elem_of_cons; [by injection E as ->|]. eapply (in_excl _ _ I); [exact (elem_of_list_lookup_2 _ _ _ Hi)|exact Hk'].
  - destruct o as [k|k|k|k|k|m|m|ks]; cbn [disciplined] in Hd; try discriminate; apply andb_true_iff in Hd as [Hc Hd]; cbn [exec].
    + destruct (rw_writer (lock_at (pr_locks c) k)) eqn:Ew; [by exists l|]. eexists. apply (inv_update c l i (H, Lock k :: r) (H, Drain k :: r) k); cbn; auto.
      * by split.
      * intros k' Hne. by rewrite waits_ne, Hw.
      * rewrite waits_eq, Ew, (cnt_ops _ H (Lock k :: r) (Drain k :: r)). specialize (Hw k). lia.
      * intros j t _ Hj. apply (in_excl _ _ I). by apply elem_of_list_lookup_2 in Hj.
      * intros Hk. by destruct (above_fresh H k true Hc).
    + apply bool_decide_eq_true in Hc.
      assert (rw_writer (lock_at (pr_locks c) k) = true) as Ew.
      { pose proof (in_writer _ _ I k) as E. pose proof (total_in (λ t, cnt (k, true) t + waits k t) l _ (elem_of_list_lookup_2 _ _ _ Hi)) as E'. cbn beta in E'.
        pose proof (proj2 (cnt_pos (k, true) (H, Unlock k :: r)) Hc). destruct (rw_writer _); [done|lia]. }
      rewrite Ew. eexists. pose proof (cnt_drop (k, true) H r (Unlock k :: r) Hnd Hc) as D.
      apply (inv_update c l i (H, Unlock k :: r) (drop1 (k, true) H, r) k); cbn; auto.
      * by apply ok_no_drain.
      * by apply drop1_nodup.
      * intros k' Hne. rewrite <- (D (k', false)), <- (D (k', true)), !bd_pair, (bool_decide_eq_false_2 (k' = k)), !andb_false_l, (no_drain _ _ k' Hd) by done. rewrite Hw. lia.
      * rewrite <- (D (k, false)), bd_pair, andb_false_r. lia.
      * rewrite <- (D (k, true)), bool_decide_eq_true_2, Ew, Hw, (no_drain _ _ k Hd) by done. lia.
      * intros j t _ Hj. apply (in_excl _ _ I). by apply elem_of_list_lookup_2 in Hj.
      * intros Hk. by apply drop1_in in Hk as [_ []].
    + destruct (rw_writer (lock_at (pr_locks c) k)) eqn:Ew; [by exists l|]. eexists.
      assert (total (λ t, cnt (k, true) t + waits k t) l = 0) as Z by (rewrite <- (in_writer _ _ I k), Ew; done).
      apply (inv_update c l i (H, RLock k :: r) ((k, false) :: H, r) k); cbn; auto.
      * by apply ok_no_drain.
      * by apply (above_nodup H k false).
      * intros k' Hne. rewrite !(cnt_cons _ _ _ _ (RLock k :: r)), !bd_pair, (bool_decide_eq_false_2 (k = k')), !andb_false_l, (no_drain _ _ k' Hd), Hw by done. done.
      * rewrite !(cnt_cons _ _ _ _ (RLock k :: r)), bool_decide_eq_true_2 by done. lia.
      * rewrite !(cnt_cons _ _ _ _ (RLock k :: r)), bd_pair, andb_false_r, Ew, Hw, (no_drain _ _ k Hd). lia.
      * intros j t _ Hj Hk. apply elem_of_list_lookup_2, (total_in (λ t, cnt (k, true) t + waits k t)) in Hj. cbn beta in Hj. apply cnt_pos in Hk. lia.
      * intros [E|Hk]%elem_of_cons; [done|]. by destruct (above_fresh H k true Hc).
    + apply bool_decide_eq_true in Hc.
      pose proof (in_readers _ _ I k) as E. pose proof (total_in (cnt (k, false)) l _ (elem_of_list_lookup_2 _ _ _ Hi)) as E'.
      pose proof (proj2 (cnt_pos (k, false) (H, RUnlock k :: r)) Hc) as E''. destruct (rw_readers (lock_at (pr_locks c) k)) as [|n] eqn:Er; [lia|].
      eexists. pose proof (cnt_drop (k, false) H r (RUnlock k :: r) Hnd Hc) as D.
      apply (inv_update c l i (H, RUnlock k :: r) (drop1 (k, false) H, r) k); cbn; auto.
      * by apply ok_no_drain.
      * by apply drop1_nodup.
      * intros k' Hne. rewrite <- (D (k', false)), <- (D (k', true)), !bd_pair, (bool_decide_eq_false_2 (k' = k)), !andb_false_l, (no_drain _ _ k' Hd) by done. rewrite Hw. lia.
      * rewrite <- (D (k, false)), bool_decide_eq_true_2, Er by done. lia.
      * rewrite <- (D (k, true)), bd_pair, andb_false_r, Hw, (no_drain _ _ k Hd). lia.
      * intros j t _ Hj Hk. apply elem_of_list_lookup_2 in Hj. pose proof (in_excl _ _ I k t Hj Hk). lia.
      * intros Hk. apply drop1_in in Hk as [Hk _]. pose proof (in_excl _ _ I k _ (elem_of_list_lookup_2 _ _ _ Hi) Hk). lia.
    + eexists. apply (inv_update0 c l i (H, Read m :: r) (H, r)); cbn; auto.
      * by apply ok_no_drain.
      * intros k. by rewrite (no_drain _ _ k Hd), Hw.
      * intros k Hk. eapply (in_excl _ _ I); [exact (elem_of_list_lookup_2 _ _ _ Hi)|exact Hk].
    + eexists. apply (inv_update0 c l i (H, Write m :: r) (H, r)); cbn; auto.
      * by apply ok_no_drain.
      * intros k. by rewrite (no_drain _ _ k Hd), Hw.
      * intros k Hk. eapply (in_excl _ _ I); [exact (elem_of_list_lookup_2 _ _ _ Hi)|exact Hk].
Qed.

Lemma inv_start c l ops : inv c l -> disciplined G rank [] ops = true -> inv (lstep c (Start ops)) (l ++ [([], ops)]).
Proof.
  intros [H1 H2 H3 H4 H5 H6] Hd. unfold lstep. rewrite H1. split; cbn.
  - done.
  - by rewrite map_app, H2.
  - intros t [Ht| ->%elem_of_list_singleton]%elem_of_app; [by apply H3|]. split; [by apply ok_no_drain|constructor].
  - intros k. rewrite total_app, H4. cbn. change (cnt (k, false) ([], ops)) with 0. lia.
  - intros k. rewrite total_app, H5. cbn. change (cnt (k, true) ([], ops)) with 0. rewrite (no_drain _ _ k Hd). lia.
  - intros k t [Ht| ->%elem_of_list_singleton]%elem_of_app; [by apply H6|]. intros Hk. by apply elem_of_nil in Hk.
Qed.

Lemma inv_new : inv new_proc [].
Proof.
  split; try done; unfold lock_at; cbn.
  intros t Ht. by apply elem_of_nil in Ht.
Qed.

Lemma inv_run l : only (λ ops, disciplined G rank [] ops = true) l -> exists ts, inv (lrun l) ts.
Proof.
  unfold lrun. intros Hl. assert (exists ts, inv new_proc ts) as H0 by (exists []; exact inv_new). revert H0 Hl. generalize new_proc. induction l as [|e l IH]; intros c [ts I] Hl; [by exists ts|].
  cbn [fold_left]. apply IH; [|intros ops Ho; apply Hl; by right]. destruct e as [i|ops]; [by apply (inv_go c ts)|]. exists (ts ++ [([], ops)])%list. apply inv_start; [done|]. apply Hl. by left.
Qed.

(** ** What follows *)
Lemma holds_write_ok ops : forall H k, disciplined G rank H ops = true -> NoDup (map fst H) -> holds_write k ops = true -> (k, true) ∈ H.
Proof.
  induction ops as [|o r IH]; intros H k Hd Hn Hk; [done|].
  destruct o as [k'|k'|k'|k'|k'|m|m|ks]; cbn [disciplined holds_write] in *; try discriminate; apply andb_true_iff in Hd as [Hc Hd].
  - apply andb_true_iff in Hk as [Hne Hk]. apply negb_true_iff, String.eqb_neq in Hne. specialize (IH _ k Hd (above_nodup _ _ _ Hc Hn) Hk). apply elem_of_cons in IH as [[= ->]|]; done.
  - apply orb_true_iff in Hk as [->%String.eqb_eq|Hk]; [by apply bool_decide_eq_true in Hc|]. specialize (IH _ k Hd (drop1_nodup _ _ Hn) Hk). by apply drop1_in in IH as [? _].
  - specialize (IH _ k Hd (above_nodup _ _ _ Hc Hn) Hk). apply elem_of_cons in IH as [[= ->]|]; done.
  - specialize (IH _ k Hd (drop1_nodup _ _ Hn) Hk). by apply drop1_in in IH as [? _].
  - by apply (IH H).
  - by apply (IH H).
Qed.
Lemma holds_read_ok ops : forall H k, disciplined G rank H ops = true -> NoDup (map fst H) -> holds_read k ops = true -> (k, false) ∈ H.
Proof.
  induction ops as [|o r IH]; intros H k Hd Hn Hk; [done|].
  destruct o as [k'|k'|k'|k'|k'|m|m|ks]; cbn [disciplined holds_read] in *; try discriminate; apply andb_true_iff in Hd as [Hc Hd].
  - specialize (IH _ k Hd (above_nodup _ _ _ Hc Hn) Hk). apply elem_of_cons in IH as [[= ->]|]; done.
  - specialize (IH _ k Hd (drop1_nodup _ _ Hn) Hk). by apply drop1_in in IH as [? _].
  - apply andb_true_iff in Hk as [Hne Hk]. apply negb_true_iff, String.eqb_neq in Hne. specialize (IH _ k Hd (above_nodup _ _ _ Hc Hn) Hk). apply elem_of_cons in IH as [[= ->]|]; done.
  - apply orb_true_iff in Hk as [->%String.eqb_eq|Hk]; [by apply bool_decide_eq_true in Hc|]. specialize (IH _ k Hd (drop1_nodup _ _ Hn) Hk). by apply drop1_in in IH as [? _].
  - by apply (IH H).
  - by apply (IH H).
Qed.
Lemma thr_holds_write H ops k : thr_ok (H, ops) -> NoDup (map fst H) -> holds_write k ops = true -> (k, true) ∈ H.
Proof.
  intros Hok Hn Hk. destruct (thr_ok_ops _ _ Hok) as [(k' & r & -> & Ha & Hd)|[Hd _]]; [|by apply (holds_write_ok ops)].
  cbn in Hk. apply andb_true_iff in Hk as [Hne Hk]. apply negb_true_iff, String.eqb_neq in Hne.
  pose proof (holds_write_ok r _ k Hd (above_nodup _ _ _ Ha Hn) Hk) as E. apply elem_of_cons in E as [[= ->]|]; done.
Qed.
Lemma thr_holds_read H ops k : thr_ok (H, ops) -> NoDup (map fst H) -> holds_read k ops = true -> (k, false) ∈ H.
Proof.
  intros Hok Hn Hk. destruct (thr_ok_ops _ _ Hok) as [(k' & r & -> & Ha & Hd)|[Hd _]]; [|by apply (holds_read_ok ops)].
  cbn in Hk. pose proof (holds_read_ok r _ k Hd (above_nodup _ _ _ Ha Hn) Hk) as E. apply elem_of_cons in E as [[=]|]; done.
Qed.

Lemma next_of c l i o : inv c l -> about_to c i o -> exists H r, l !! i = Some (H, o :: r) /\ thr_ok (H, o :: r) /\ NoDup (map fst H).
Proof.
  intros I [r Hr]. rewrite (in_threads _ _ I), list_lookup_fmap in Hr. destruct (l !! i) as [[H ops]|] eqn:Hi; [|done]. cbn in Hr. injection Hr as ->.
  exists H, r. split; [done|]. exact (in_ok _ _ I _ (elem_of_list_lookup_2 _ _ _ Hi)).
Qed.

(** Two goroutines do not both hold a lock unless both hold it for reading. *)
Lemma exclusive c l i j H1 o1 H2 o2 k b : inv c l -> i <> j -> l !! i = Some (H1, o1) -> l !! j = Some (H2, o2) -> (k, true) ∈ H1 -> (k, b) ∈ H2 -> False.
Proof.
  intros I Hne Hi Hj Hk1 Hk2. destruct b.
  - pose proof (total_two (λ t, cnt (k, true) t + waits k t) l i j _ _ Hne Hi Hj) as E. cbn beta in E. rewrite <- (in_writer _ _ I k) in E.
    pose proof (proj2 (cnt_pos (k, true) (H1, o1)) Hk1). pose proof (proj2 (cnt_pos (k, true) (H2, o2)) Hk2). destruct (rw_writer _); lia.
  - pose proof (in_excl _ _ I k _ (elem_of_list_lookup_2 _ _ _ Hi) Hk1) as E. rewrite (in_readers _ _ I k) in E.
    pose proof (total_in (cnt (k, false)) l _ (elem_of_list_lookup_2 _ _ _ Hj)) as E'. pose proof (proj2 (cnt_pos (k, false) (H2, o2)) Hk2). lia.
Qed.

Lemma no_collision c l m : inv c l -> G m <> Unchecked -> ~ collision c m.
Proof.
  intros I Hg (i & j & Hne & Hw & Ha). destruct (next_of _ _ _ _ I Hw) as (H1 & r1 & Hi & Hok1 & _). unfold thr_ok in Hok1. cbn in Hok1.
  destruct (G m) as [k| |] eqn:Eg; [|done|done]. apply andb_true_iff in Hok1 as [Hc1%bool_decide_eq_true _].
  destruct Ha as [Ha|Ha]; destruct (next_of _ _ _ _ I Ha) as (H2 & r2 & Hj & Hok2 & _); unfold thr_ok in Hok2; cbn in Hok2; rewrite Eg in Hok2; apply andb_true_iff in Hok2 as [Hc2 _].
  - apply orb_true_iff in Hc2 as [Hc2|Hc2]; apply bool_decide_eq_true in Hc2; by eapply (exclusive c l i j).
  - apply bool_decide_eq_true in Hc2. by eapply (exclusive c l i j).
Qed.

Lemma no_intruder c l i j ops m k o : inv c l -> G m = By k -> i <> j -> pr_threads c !! i = Some ops ->
  (holds_write k ops = true /\ o = Read m \/ (holds_write k ops = true \/ holds_read k ops = true) /\ o = Write m) -> ~ about_to c j o.
Proof.
  intros I Eg Hne Hi Ho Hj. rewrite (in_threads _ _ I), list_lookup_fmap in Hi. destruct (l !! i) as [[H1 ops']|] eqn:Hi'; [|done]. injection Hi as ->.
  destruct (in_ok _ _ I _ (elem_of_list_lookup_2 _ _ _ Hi')) as [Hok1 Hn1]. destruct (next_of _ _ _ _ I Hj) as (H2 & r2 & Hj' & Hok2 & _).
  destruct Ho as [[Hw ->]|[Hw ->]]; unfold thr_ok in Hok2; cbn in Hok2; rewrite Eg in Hok2; apply andb_true_iff in Hok2 as [Hc2 _].
  - pose proof (thr_holds_write _ _ _ Hok1 Hn1 Hw). apply orb_true_iff in Hc2 as [Hc2|Hc2]; apply bool_decide_eq_true in Hc2; by eapply (exclusive c l i j).
  - apply bool_decide_eq_true in Hc2. destruct Hw as [Hw|Hw].
    + pose proof (thr_holds_write _ _ _ Hok1 Hn1 Hw). by eapply (exclusive c l i j).
    + pose proof (thr_holds_read _ _ _ Hok1 Hn1 Hw). by eapply (exclusive c l j i).
Qed.

(** The lock a blocked goroutine waits for. *)
Definition wanted (o : op) : option string := match o with Lock k | RLock k | Drain k => Some k | _ => None end.
Lemma blocked_wants L o : exec L o = Blocks -> exists k, wanted o = Some k /\ (rw_writer (lock_at L k) = true \/ 0 < rw_readers (lock_at L k) /\ exists k', o = Drain k').
Proof.
  destruct o as [k|k|k|k|k|m|m|ks]; cbn; try discriminate.
  - destruct (rw_writer _) eqn:E; [|discriminate]. intros _. exists k. auto.
  - by destruct (rw_writer _).
  - destruct (rw_writer _) eqn:E; [|discriminate]. intros _. exists k. auto.
  - by destruct (rw_readers _).
  - destruct (rw_readers _) eqn:E; [discriminate|]. intros _. exists k. split; [done|]. right. split; [lia|by exists k].
Qed.
(** What a goroutine wants is above what it holds; one that holds something is not finished. *)
Lemma wants_above H o r k b k' : thr_ok (H, o :: r) -> wanted o = Some k -> (k', b) ∈ H -> rank k' < rank k.
Proof.
  intros Hok Hw Hk. assert (above rank H k = true) as Ha.
  { unfold thr_ok in Hok. cbn in Hok. destruct o; cbn in Hw; try discriminate; injection Hw as ->; [apply andb_true_iff in Hok; tauto|apply andb_true_iff in Hok; tauto|tauto]. }
  unfold above in Ha. rewrite forallb_forall in Ha. apply elem_of_list_In, Ha in Hk. by apply Nat.ltb_lt in Hk.
Qed.
Lemma holder_unfinished c l i H ops h : inv c l -> l !! i = Some (H, ops) -> h ∈ H -> exists o r, ops = o :: r /\ about_to c i o.
Proof.
  intros I Hi Hh. destruct (in_ok _ _ I _ (elem_of_list_lookup_2 _ _ _ Hi)) as [Hok _]. destruct ops as [|o r].
  - unfold thr_ok in Hok. cbn in Hok. destruct H; [by apply elem_of_nil in Hh|done].
  - exists o, r. split; [done|]. exists r. by rewrite (in_threads _ _ I), list_lookup_fmap, Hi.
Qed.

(** In a deadlock every wait leads to a wait for a higher lock. *)
Lemma climb c l : inv c l -> deadlock c -> forall i o k, about_to c i o -> exec (pr_locks c) o = Blocks -> wanted o = Some k ->
  exists j o' k', about_to c j o' /\ exec (pr_locks c) o' = Blocks /\ wanted o' = Some k' /\ rank k < rank k'.
Proof.
  intros I [_ Hd] i o k Ho Hb Hk.
  assert (forall j H ops b, l !! j = Some (H, ops) -> (k, b) ∈ H -> exists j o' k', about_to c j o' /\ exec (pr_locks c) o' = Blocks /\ wanted o' = Some k' /\ rank k < rank k') as Hold.
  { intros j H ops b Hj Hkb. destruct (holder_unfinished _ _ _ _ _ _ I Hj Hkb) as (o' & r & -> & Ha). destruct (Hd j ltac:(by exists o')) as (o2 & Ha2 & Hb2).
    assert (o2 = o') as -> by (destruct Ha as [? E1], Ha2 as [? E2]; congruence). destruct (blocked_wants _ _ Hb2) as (k' & Hk' & _).
    exists j, o', k'. split; [done|]. split; [done|]. split; [done|]. destruct (in_ok _ _ I _ (elem_of_list_lookup_2 _ _ _ Hj)) as [Hok _]. by apply (wants_above H o' r k' b). }
  assert (0 < rw_readers (lock_at (pr_locks c) k) -> exists j o' k', about_to c j o' /\ exec (pr_locks c) o' = Blocks /\ wanted o' = Some k' /\ rank k < rank k') as Hread.
  { intros Hr. rewrite (in_readers _ _ I k) in Hr. destruct (total_pos _ _ Hr) as ([H ops] & Ht & Hc). apply elem_of_list_lookup in Ht as [j Hj]. apply cnt_pos in Hc. by apply (Hold j H ops false). }
  destruct (blocked_wants _ _ Hb) as (k2 & Hk2 & Hc). assert (k2 = k) as -> by congruence. destruct Hc as [Hw|[Hr _]]; [|by apply Hread].
  pose proof (in_writer _ _ I k) as E. rewrite Hw in E. destruct (total_pos (λ t, cnt (k, true) t + waits k t) l ltac:(lia)) as ([H ops] & Ht & Hc). cbn beta in Hc. apply elem_of_list_lookup in Ht as [j Hj].
  destruct (decide ((k, true) ∈ H)) as [Hin|Hin]; [by apply (Hold j H ops true)|]. assert (cnt (k, true) (H, ops) = 0) as E0.
  { destruct (cnt (k, true) (H, ops)) eqn:E0; [done|]. destruct Hin. apply (cnt_pos (k, true) (H, ops)). lia. }
  rewrite E0 in Hc. unfold waits in Hc. cbn in Hc. destruct ops as [|[] r]; cbn in Hc; try lia. destruct (String.eqb k k0) eqn:Ek; [|lia]. apply String.eqb_eq in Ek. subst k0.
  assert (about_to c j (Drain k)) as Ha by (exists r; by rewrite (in_threads _ _ I), list_lookup_fmap, Hj).
  destruct (Hd j ltac:(by exists (Drain k))) as (o2 & Ha2 & Hb2). assert (o2 = Drain k) as -> by (destruct Ha as [? E1], Ha2 as [? E2]; congruence).
  apply Hread. cbn in Hb2. destruct (rw_readers _); [discriminate|lia].
Qed.

Lemma no_deadlock c l : inv c l -> ~ deadlock c.
Proof.
  intros I D. destruct D as [[i0 Hi0] Hd]. destruct (Hd i0 Hi0) as (o0 & Ho0 & Hb0). destruct (blocked_wants _ _ Hb0) as (k0 & Hk0 & _).
  assert (forall n, exists j o k, about_to c j o /\ exec (pr_locks c) o = Blocks /\ wanted o = Some k /\ n <= rank k) as Up.
  { induction n as [|n (j & o & k & H1 & H2 & H3 & H4)]; [exists i0, o0, k0; split_and!; auto with lia|].
    destruct (climb c l I (conj (ex_intro _ i0 Hi0) Hd) j o k H1 H2 H3) as (j' & o' & k' & H1' & H2' & H3' & H4'). exists j', o', k'. split_and!; auto; lia. }
  destruct (Up (S (list_max (map (λ t : thr, match t.2 with o :: _ => match wanted o with Some k => rank k | None => 0 end | [] => 0 end) l)))) as (j & o & k & [r Hr] & _ & Hw & Hk).
  rewrite (in_threads _ _ I), list_lookup_fmap in Hr. destruct (l !! j) as [[H ops]|] eqn:Hj; [|done]. cbn in Hr. injection Hr as ->.
  pose proof (proj1 (list_max_le (map (λ t : thr, match t.2 with o :: _ => match wanted o with Some k => rank k | None => 0 end | [] => 0 end) l) _) (le_n _)) as Hm.
  rewrite List.Forall_forall in Hm. specialize (Hm (rank k)). assert (rank k <= list_max (map (λ t : thr, match t.2 with o :: _ => match wanted o with Some k => rank k | None => 0 end | [] => 0 end) l)); [|lia].
  apply Hm. apply elem_of_list_In, elem_of_list_fmap. exists (H, o :: r). cbn. rewrite Hw. split; [done|]. by apply elem_of_list_lookup_2 in Hj.
Qed.
End invariant.

(** The steps left. *)
Definition weight (o : op) : nat := match o with Lock _ => 2 | _ => 1 end.
Fixpoint load (ops : list op) : nat := match ops with [] => 0 | o :: r => weight o + load r end.
Fixpoint work (l : list (list op)) : nat := match l with [] => 0 | ops :: r => load ops + work r end.
Lemma load_app a b : load (a ++ b) = load a + load b.
Proof. induction a as [|o a IH]; cbn; [done|]. rewrite IH. lia. Qed.
Lemma work_insert l i x y : l !! i = Some x -> work (<[i := y]> l) + load x = work l + load y.
Proof.
  revert i. induction l as [|a l IH]; intros [|i] Hi; try discriminate.
  - injection Hi as ->. change (<[0 := y]> (x :: l)) with (y :: l). cbn. lia.
  - cbn in Hi. specialize (IH i Hi). change (<[S i := y]> (a :: l)) with (a :: <[i := y]> l). cbn. lia.
Qed.
Lemma exec_load L o L' more : exec L o = Goes L' more -> load more < weight o.
Proof.
  destruct o; cbn; try (destruct (rw_writer _)); try (destruct (rw_readers _)); intros E; try discriminate; injection E as <- <-; cbn; lia.
Qed.
Definition stuck (L : gmap string rw) (ops : list op) : bool := match ops with [] => true | o :: _ => match exec L o with Blocks => true | _ => false end end.
Lemma finish G rank n : forall c l, work (pr_threads c) <= n -> inv G rank c l -> exists l', only_steps l' /\ pr_dead (fold_left lstep l' c) = false /\ all_done (fold_left lstep l' c).
Proof.
  induction n as [|n IH]; intros c l Hn I.
  all: destruct (forallb (stuck (pr_locks c)) (pr_threads c)) eqn:Es.
  1, 3: exists []; split; [intros e He; by apply elem_of_nil in He|]; split; [exact (in_alive _ _ _ _ I)|]; cbn; intros ops Ho; destruct ops as [|o r]; [done|]; exfalso;
    apply (no_deadlock G rank c l I); split; [apply elem_of_list_lookup in Ho as [i Hi]; exists i, o, r; exact Hi|]; intros i [o' [r' Hi]]; exists o'; split; [by exists r'|];
    rewrite forallb_forall in Es; specialize (Es (o' :: r')); cbn in Es; destruct (exec (pr_locks c) o'); try done; discriminate Es; apply elem_of_list_In; by apply elem_of_list_lookup_2 in Hi.
  all: assert (exists i ops, pr_threads c !! i = Some ops /\ stuck (pr_locks c) ops = false) as (i & ops & Hi & Hs) by
    (clear - Es; induction (pr_threads c) as [|a t IHt]; [discriminate|]; cbn in Es; destruct (stuck (pr_locks c) a) eqn:Ea; [destruct (IHt Es) as (i & ops & ? & ?); by exists (S i), ops|by exists 0, a]).
  all: destruct ops as [|o r]; [discriminate|]; cbn in Hs; destruct (inv_go G rank c l i I) as [l2 I2]; pose proof (in_alive _ _ _ _ I2) as Ha; pose proof (in_alive _ _ _ _ I) as Ha0;
    assert (exists L more, exec (pr_locks c) o = Goes L more) as (L & more & Ex) by
      (destruct (exec (pr_locks c) o) eqn:Ex; [discriminate| |eauto]; exfalso; clear I2; unfold lstep in Ha; rewrite Ha0, Hi, Ex in Ha; discriminate);
    assert (pr_threads (lstep c (Go i)) = <[i := (more ++ r)%list]> (pr_threads c)) as Et by (unfold lstep; by rewrite Ha0, Hi, Ex);
    pose proof (work_insert _ i _ (more ++ r)%list Hi) as Hw; cbn [load] in Hw; rewrite load_app in Hw; pose proof (exec_load _ _ _ _ Ex).
  - lia.
  - destruct (IH (lstep c (Go i)) l2) as (l' & H1 & H2 & H3); [rewrite Et; lia|exact I2|].
    exists (Go i :: l'). split; [|split; [exact H2|exact H3]]. intros e He. apply elem_of_cons in He as [->|He]; [by exists i|by apply H1].
Qed.

(** All goroutines keep to the discipline: the process does not die, accesses of guarded maps do not collide and are not disturbed, and there is no deadlock. *)
Theorem discipline_safe G rank l : only (λ ops, disciplined G rank [] ops = true) l ->
  pr_dead (lrun l) = false /\ ~ deadlock (lrun l) /\ (forall m, G m <> Unchecked -> ~ collision (lrun l) m) /\
  (forall m k i j ops o, G m = By k -> i <> j -> pr_threads (lrun l) !! i = Some ops ->
     (holds_write k ops = true /\ o = Read m \/ (holds_write k ops = true \/ holds_read k ops = true) /\ o = Write m) -> ~ about_to (lrun l) j o) /\
  (exists l', only_steps l' /\ pr_dead (lrun (l ++ l')) = false /\ all_done (lrun (l ++ l'))).
Proof.
  intros Hl. destruct (inv_run G rank l Hl) as [ts I]. split; [exact (in_alive _ _ _ _ I)|]. split; [exact (no_deadlock G rank _ _ I)|]. split.
  - intros m. exact (no_collision G rank _ _ m I).
  - split; [intros m k i j ops o; exact (no_intruder G rank _ _ i j ops m k o I)|].
    destruct (finish G rank _ _ _ (le_n _) I) as (l' & H1 & H2 & H3). exists l'. unfold lrun. rewrite fold_left_app. auto.
Qed.
