(** What a gossiper records about a period. *)
From Verif Require Import Bytes Hex Json Types Crypto Verify Prog Gossiper SpecVerify SpecGossiper ProgFacts GstFacts CodecFacts CryptoFacts VerifyFacts GWalk GossiperInv GossiperSeq GossiperWalks SpecStops.
From Coq Require Import Lia.
Open Scope string_scope.

Section records.
Context {P : prims} (cfg : gconf P).

Definition LR (s s' : gst) : Prop := t_log s' = t_log s.
Local Instance LR_pre : PreOrder LR.
Proof. split; unfold LR; [done|]. intros a b c. congruence. Qed.
Local Ltac lk := unfold keeps, LR, inserted; cbn zeta; intros; split_and?; try done; autorewrite with gst; try done.

Lemma walk_log : walk_ok cfg (λ _, True) LR (λ _ _, True) (λ _, True) (λ _ _, True) (λ _ _, True).
Proof.
  split; try by lk.
  - apply LR_pre.
  - intros s g f _ _ _. unfold keeps, LR, read_and_store. split; [done|]. cbn [fst]. autorewrite with gst.
    destruct (Nat.ltb _ _); by autorewrite with gst.
Qed.

Lemma exec_log p y ts : safe (λ _, True) LR (λ _ _, True) (λ _, True) (λ _ _, True) p (s_st y) ->
  t_log (s_st (exec p y ts)) = t_log (s_st y).
Proof.
  intros Hs. unfold exec.
  pose proof (safe_run (λ _, True) LR (λ _ _, True) (λ _, True) ltac:(done) (λ _ _, True) p (s_st y) ltac:(done) Hs) as HR.
  destruct (run p (s_st y)) as [[s' new] r]. cbn. destruct r; apply HR.
Qed.

Lemma step_log y e : e <> Period -> t_log (s_st (step cfg y e)) = t_log (s_st y).
Proof.
  intros He. destruct e as [n g|n|n|i|p sec st|]; cbn [step].
  - apply exec_log. by eapply s_object; [exact walk_log|..].
  - apply exec_log. eapply s_notification; [exact walk_log|]. lk.
  - apply exec_log. eapply s_request; [exact walk_log|]. lk.
  - destruct (nth_error _ i) as [t|]; [|done]. apply exec_log. by eapply s_start; [exact walk_log|].
  - cbn. by autorewrite with gst.
  - done.
Qed.

(** Interleaved handlers. *)
Lemma pool_log Dl c c' : psteps (start_task cfg) (no_wipe cfg Dl) clock_step c c' ->
  pool_ok (λ _, True) LR (λ _ _, True) (λ _, True) c ->
  pool_ok (λ _, True) LR (λ _ _, True) (λ _, True) c' /\ LR (p_st c) (p_st c').
Proof.
  intros Hs Ht. eapply pool_steps; [ | | | | |exact Hs|exact Ht].
  - apply LR_pre.
  - done.
  - intros t s _. by eapply s_start; [exact walk_log|].
  - intros p s Hp _. destruct Hp.
    + by eapply s_object; [exact walk_log|..].
    + eapply s_notification; [exact walk_log|]. lk.
    + eapply s_request; [exact walk_log|]. lk.
  - intros s s' (p & sec & st & ->) _. split; [done|]. lk.
Qed.

Lemma run_periodic_log s : t_log (run periodic s).1.1 =
  if entry_nonzero (entry_of s) then <[e_period (entry_of s) := entry_of s]> (t_log s) else t_log s.
Proof. unfold periodic, save, wipe. cbn. destruct (entry_nonzero _); by autorewrite with gst; destruct s. Qed.

Lemma count_fragments_lists m : count_fragments m = objects_in_lists m.
Proof.
  unfold count_fragments, objects_in_lists, map_fold. cbn. unfold compose, uncurry.
  induction (map_to_list m) as [|[i l] r IH]; [done|]. cbn. rewrite app_length. by rewrite IH.
Qed.

Lemma size_objects (m : gmap gid gobj) : size m = objects m.
Proof. done. Qed.

Lemma entry_counts s : counts s (entry_of s).
Proof. unfold counts, entry_of. cbn. rewrite !count_fragments_lists. by split_and!. Qed.

Lemma entry_period s : period_is s (e_period (entry_of s)).
Proof. unfold period_is, entry_of. cbn. destruct (atoi _); auto. Qed.

Lemma counts_unique s e e' : counts s e -> counts s e' -> e_period e = e_period e' -> e = e'.
Proof.
  destruct e, e'. unfold counts. cbn. intros (-> & -> & -> & -> & -> & -> & -> & -> & -> & -> & -> & -> & ->).
  by intros (-> & -> & -> & -> & -> & -> & -> & -> & -> & -> & -> & -> & ->) ->.
Qed.

Lemma objects_pos m : objects m <> 0 <-> exists id g, m !! id = Some g.
Proof.
  unfold objects. split.
  - intros H. destruct (map_to_list m) as [|[i g] r] eqn:E; [done|]. exists i, g. apply elem_of_map_to_list. rewrite E. by left.
  - intros (id & g & E). apply elem_of_map_to_list in E. destruct (map_to_list m); [by apply elem_of_nil in E|done].
Qed.

Lemma lists_pos m : objects_in_lists m <> 0 <-> exists id l g, m !! id = Some l /\ g ∈ l.
Proof.
  unfold objects_in_lists. split.
  - intros H. destruct (concat _) as [|g r] eqn:E; [done|].
    assert (In g (concat (map snd (map_to_list m)))) as Hc by (rewrite E; by left).
    apply in_concat in Hc as (l & Hl & Hg). apply in_map_iff in Hl as ([i l'] & <- & Hi).
    exists i, l', g. split; [by apply elem_of_map_to_list, elem_of_list_In|by apply elem_of_list_In].
  - intros (id & l & g & E & Hg). apply elem_of_map_to_list in E.
    assert (g ∈ concat (map snd (map_to_list m))) as Hc.
    { apply elem_of_list_In, in_concat. exists l. split; [|by apply elem_of_list_In].
      apply in_map_iff. exists (id, l). split; [done|]. by apply elem_of_list_In. }
    destruct (concat _); [by apply elem_of_nil in Hc|done].
Qed.

Lemma black_pos (m : gset string) : length (elements m) <> 0 <-> exists x, x ∈ m.
Proof.
  split.
  - intros H. destruct (elements m) as [|x r] eqn:E; [done|]. exists x. apply elem_of_elements. rewrite E. by left.
  - intros [x Hx]. apply elem_of_elements in Hx. destruct (elements m); [by apply elem_of_nil in Hx|done].
Qed.

Lemma nonzero_holds s : entry_nonzero (entry_of s) = true <-> holds_something s.
Proof.
  unfold entry_nonzero. rewrite negb_true_iff, Nat.eqb_neq. unfold holds_something.
  destruct (entry_counts s) as (-> & -> & -> & -> & -> & -> & -> & -> & -> & -> & -> & _). split.
  - intros H.
    destruct (decide (objects (t_sth_init s) = 0)) as [A1|A1]; [|apply objects_pos in A1; left; by exists (OInit Sth)].
    destruct (decide (objects (t_rev_init s) = 0)) as [A2|A2]; [|apply objects_pos in A2; left; by exists (OInit Rev)].
    destruct (decide (objects (t_acc_init s) = 0)) as [A3|A3]; [|apply objects_pos in A3; left; by exists (OInit Acc)].
    destruct (decide (objects (t_con_init s) = 0)) as [A4|A4]; [|apply objects_pos in A4; left; by exists OCon].
    destruct (decide (objects (t_sth_full s) = 0)) as [A5|A5]; [|apply objects_pos in A5; left; by exists (OFull Sth)].
    destruct (decide (objects (t_rev_full s) = 0)) as [A6|A6]; [|apply objects_pos in A6; left; by exists (OFull Rev)].
    destruct (decide (objects (t_acc_full s) = 0)) as [A7|A7]; [|apply objects_pos in A7; left; by exists (OFull Acc)].
    destruct (decide (objects_in_lists (t_sth_frag s) = 0)) as [B1|B1]; [|apply lists_pos in B1; right; left; by exists Sth].
    destruct (decide (objects_in_lists (t_rev_frag s) = 0)) as [B2|B2]; [|apply lists_pos in B2; right; left; by exists Rev].
    destruct (decide (objects_in_lists (t_acc_frag s) = 0)) as [B3|B3]; [|apply lists_pos in B3; right; left; by exists Acc].
    destruct (decide (length (elements (t_black s)) = 0)) as [C|C]; [lia|apply black_pos in C; auto].
  - intros [([[]| |[]] & Hk)|[([] & Hk)|Hk]]; cbn [get_tbl get_frags] in Hk; (apply objects_pos in Hk || apply lists_pos in Hk || apply black_pos in Hk); lia.
Qed.

Lemma period_functional s p q : period_is s p -> period_is s q -> p = q.
Proof. unfold period_is. intuition congruence. Qed.

(** At the end of a period. *)
Lemma period_recorded y (s := s_st y) (s' := s_st (step cfg y Period)) p : period_is s p ->
  (holds_something s -> exists e, t_log s' !! p = Some e /\ e_period e = p /\ counts s e) /\
  (~ holds_something s -> t_log s' !! p = t_log s !! p) /\
  (forall q, q <> p -> t_log s' !! q = t_log s !! q).
Proof.
  intros Hp. assert (p = e_period (entry_of s)) as -> by (eapply period_functional; [exact Hp|apply entry_period]).
  assert (t_log s' = if entry_nonzero (entry_of s) then <[e_period (entry_of s) := entry_of s]> (t_log s) else t_log s) as E.
  { unfold s', s. cbn [step]. rewrite <- run_periodic_log. unfold exec. by destruct (run periodic (s_st y)) as [[s1 new] r]. }
  rewrite E. pose proof (nonzero_holds s) as Hn. destruct (entry_nonzero (entry_of s)) eqn:En.
  - split_and!.
    + intros _. exists (entry_of s). rewrite lookup_insert. split_and!; [done|done|apply entry_counts].
    + intros H. exfalso. by apply H, Hn.
    + intros q Hq. by rewrite lookup_insert_ne.
  - split_and!; [|done|done]. intros H. apply Hn in H. done.
Qed.

Lemma holds_dec s : holds_something s \/ ~ holds_something s.
Proof. rewrite <- nonzero_holds. destruct (entry_nonzero _); auto. Qed.

Lemma steps_app y l1 l2 : steps cfg y (l1 ++ l2)%list = steps cfg (steps cfg y l1) l2.
Proof. apply fold_left_app. Qed.

Lemma period_total s : exists p, period_is s p.
Proof. exists (e_period (entry_of s)). apply entry_period. Qed.

(** In every history the record of a number is what there was at the end of the last period of that number. *)
Lemma record_history a b d l p e (at_ := λ l, s_st (steps cfg (init_gsys a b d) l)) :
  t_log (at_ l) !! p = Some e <->
  exists l1 l2, l = (l1 ++ Period :: l2)%list /\ period_is (at_ l1) p /\ holds_something (at_ l1) /\ e_period e = p /\ counts (at_ l1) e /\
    forall l3 l4, l2 = (l3 ++ Period :: l4)%list -> period_is (at_ (l1 ++ Period :: l3)%list) p -> ~ holds_something (at_ (l1 ++ Period :: l3)%list).
Proof.
  subst at_. cbn beta. induction l as [|ev l IH] using rev_ind.
  { cbn. rewrite lookup_empty. split; [done|]. by intros ([|] & ? & ? & _). }
  assert (forall l1 l2, (l ++ [ev])%list = (l1 ++ Period :: l2)%list -> (ev = Period /\ l1 = l /\ l2 = []) \/ exists l2', l2 = (l2' ++ [ev])%list /\ l = (l1 ++ Period :: l2')%list) as Hcut.
  { intros l1 l2. destruct l2 as [|z l2 _] using rev_ind.
    - intros [-> E]%app_inj_tail. by left.
    - rewrite app_comm_cons, app_assoc. intros [-> ->]%app_inj_tail. right. eauto. }
  rewrite steps_app. cbn [steps fold_left]. fold (steps cfg). set (y := steps cfg (init_gsys a b d) l) in *.
  assert (ev = Period \/ ev <> Period) as [->|Hev] by (destruct ev; auto; by right).
  - destruct (period_total (s_st y)) as [q Hq]. destruct (period_recorded y q Hq) as (H1 & H2 & H3). split.
    + intros E. destruct (decide (p = q)) as [->|Hpq].
      * destruct (holds_dec (s_st y)) as [Hh|Hh].
        -- destruct (H1 Hh) as (e' & E' & Ep & Hc). assert (e' = e) as -> by congruence. exists l, []. split_and!; auto.
           intros [|] l4 Hl; done.
        -- rewrite (H2 Hh) in E. apply IH in E as (l1 & l2 & -> & Hp1 & Hh1 & Ep & Hc & Hlast). exists l1, (l2 ++ [Period])%list.
           split_and!; auto; [by rewrite <- app_assoc|]. intros l3 l4. destruct l4 as [|z l4 _] using rev_ind.
           ++ intros [-> _]%app_inj_tail. intros _. exact Hh.
           ++ rewrite app_comm_cons, app_assoc. intros [-> _]%app_inj_tail. by apply (Hlast _ l4).
      * rewrite (H3 p Hpq) in E. apply IH in E as (l1 & l2 & -> & Hp1 & Hh1 & Ep & Hc & Hlast). exists l1, (l2 ++ [Period])%list.
        split_and!; auto; [by rewrite <- app_assoc|]. intros l3 l4. destruct l4 as [|z l4 _] using rev_ind.
        -- intros [-> _]%app_inj_tail. intros Hp. destruct Hpq. eapply period_functional; [exact Hp|exact Hq].
        -- rewrite app_comm_cons, app_assoc. intros [-> _]%app_inj_tail. by apply (Hlast _ l4).
    + intros (l1 & l2 & El & Hp1 & Hh1 & Ep & Hc & Hlast). apply Hcut in El as [(_ & -> & ->)|(l2' & -> & El)].
      * assert (q = p) as -> by (eapply period_functional; [exact Hq|exact Hp1]).
        destruct (H1 Hh1) as (e' & E' & Ep' & Hc'). rewrite E'. f_equal. eapply counts_unique; [exact Hc'|exact Hc|congruence].
      * assert (t_log (s_st y) !! p = Some e) as E.
        { apply IH. exists l1, l2'. split_and!; auto. intros l3 l4 ->. apply (Hlast l3 (l4 ++ [Period])%list). by rewrite <- app_assoc. }
        destruct (decide (p = q)) as [->|Hpq]; [|by rewrite (H3 p Hpq)].
        rewrite H2; [done|]. pose proof (Hlast l2' [] eq_refl) as HH. rewrite <- El in HH. by apply HH.
  - rewrite step_log by done. rewrite IH. split.
    + intros (l1 & l2 & -> & Hp1 & Hh1 & Ep & Hc & Hlast). exists l1, (l2 ++ [ev])%list. split_and!; auto; [by rewrite <- app_assoc|].
      intros l3 l4. destruct l4 as [|z l4 _] using rev_ind.
      * intros [_ ?]%app_inj_tail. done.
      * rewrite app_comm_cons, app_assoc. intros [-> _]%app_inj_tail. by apply (Hlast _ l4).
    + intros (l1 & l2 & El & Hp1 & Hh1 & Ep & Hc & Hlast). apply Hcut in El as [(? & _)|(l2' & -> & El)]; [done|].
      exists l1, l2'. split_and!; auto. intros l3 l4 ->. apply (Hlast l3 (l4 ++ [ev])%list). by rewrite <- app_assoc.
Qed.

(** However the handlers interleave, no handler changes a record. *)
Lemma handlers_keep_records Dl a b d c c' : psteps (start_task cfg) (no_wipe cfg Dl) clock_step (init_pool a b d) c ->
  psteps (start_task cfg) (no_wipe cfg Dl) clock_step c c' -> t_log (p_st c') = t_log (p_st c).
Proof.
  intros H1 H2. apply pool_log in H1 as [H1 _]; [|split_and!; cbn; auto]. by apply pool_log in H2 as [_ H2].
Qed.
End records.
