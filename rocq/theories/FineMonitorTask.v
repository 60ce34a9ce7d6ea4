(** The task of a monitor when nothing else happens. *)
From Verif Require Import Bytes Types Crypto Verify VerifyFacts Bitset Revocation Clock Monitor MonitorMore FineMonitor SpecFineMonitor SpecFineMonitorAlone FineMonitorFacts FineMonitorMore FineMonitorAlone.
From Coq Require Import Lia.
Open Scope string_scope.

Section task.
Context {P : prims} (z : gzip) (c : mconf (P := P)) (m : nat) (stamp : string).

Definition keep (j : job) (s0 : mst) (kv : gid * gobj) : Prop :=
  match j with JClean _ => unconvicted s0 kv | JWipeAll _ => False | JWipe _ => of_period (pad2 m) kv | JCollect _ => True end.
Global Instance keep_dec j s0 kv : Decision (keep j s0 kv).
Proof. destruct j; cbn; apply _. Defined.

Definition vals (t : gmap gid gobj) : list gobj := map snd (map_to_list t).
Definition add (t : tab) (l : list gobj) (u : update) : update := fold_left (λ u o, collect t o u) l u.

Definition jstate (j : job) (s0 : mst) : mst := tset (jtab j) s0 (filter (keep j s0) (tget (jtab j) s0)).
Definition jupd (j : job) (s0 : mst) (u : update) : update := match j with JCollect t => add t (vals (tget t s0)) u | _ => u end.
Fixpoint sem (l : list job) (s : mst) (u : update) : mst * update := match l with [] => (s, u) | j :: r => sem r (jstate j s) (jupd j s u) end.

Lemma ueq_refl u : ueq u u.
Proof. by split_and!. Qed.
Lemma ueq_trans u v w : ueq u v -> ueq v w -> ueq u w.
Proof. intros (A1 & A2 & A3 & A4 & A5 & A6) (B1 & B2 & B3 & B4 & B5 & B6). split_and!; etrans; eauto. Qed.
Lemma ueq_sym u v : ueq u v -> ueq v u.
Proof. intros (A1 & A2 & A3 & A4 & A5 & A6). by split_and!. Qed.

Lemma add_lists t l u : add t l u = match t with
  | TTemp => u
  | TSth => mkupd (u_sths u ++ l) (u_revs u) (u_cons u) (u_accs u) (u_monitor u) (u_period u)
  | TRev => mkupd (u_sths u) (u_revs u ++ l) (u_cons u) (u_accs u) (u_monitor u) (u_period u)
  | TConD => mkupd (u_sths u) (u_revs u) (u_cons u ++ l) (u_accs u) (u_monitor u) (u_period u)
  | TAccD => mkupd (u_sths u) (u_revs u) (u_cons u) (u_accs u ++ l) (u_monitor u) (u_period u)
  end%list.
Proof.
  unfold add. revert u. induction l as [|o l IH]; intros u; cbn [fold_left].
  - destruct u, t; cbn; by rewrite ?app_nil_r.
  - rewrite IH. destruct u, t; cbn; rewrite <- ?app_assoc; done.
Qed.

Lemma add_ueq t l l' u v : l ≡ₚ l' -> ueq u v -> ueq (add t l u) (add t l' v).
Proof. intros L (A1 & A2 & A3 & A4 & A5 & A6). rewrite !add_lists. destruct t; split_and!; cbn; try done; by apply Permutation_app. Qed.

Lemma sem_ueq l s u v : ueq u v -> fst (sem l s u) = fst (sem l s v) /\ ueq (snd (sem l s u)) (snd (sem l s v)).
Proof.
  revert s u v. induction l as [|j r IH]; intros s u v H; cbn [sem]; [done|]. apply IH. destruct j; cbn [jupd]; try done. by apply add_ueq.
Qed.

Lemma tset_tget t s : tset t s (tget t s) = s.
Proof. by destruct s, t. Qed.
Lemma tset_tset t s v w : tset t (tset t s v) w = tset t s w.
Proof. by destruct s, t. Qed.
Lemma tget_own t s v : tget t (tset t s v) = v.
Proof. by destruct s, t. Qed.
Lemma con_tset t s v : m_con (tset t s v) = m_con s.
Proof. by destruct s, t. Qed.

(** What is left of a table when the entries [done] were processed. *)
Definition part (j : job) (s0 : mst) (done : gset gid) : gmap gid gobj := filter (λ kv, fst kv ∉ done \/ keep j s0 kv) (tget (jtab j) s0).
Definition got (t : tab) (s0 : mst) (done : gset gid) : gmap gid gobj := filter (λ kv, fst kv ∈ done) (tget t s0).

Definition looping (s0 : mst) (u0 : update) (s1 : mst) (j : job) (done : gset gid) (u : update) : Prop :=
  s1 = tset (jtab j) s0 (part j s0 done) /\ ueq u (match j with JCollect t => add t (vals (got t s0 done)) u0 | _ => u0 end).

Section goal.
Context (sF : mst) (uF : update).

Definition heading (l : list job) (s : mst) (u : update) : Prop := fst (sem l s u) = sF /\ ueq (snd (sem l s u)) uF.

Definition tinv (s1 : mst) (a : goro) : Prop :=
  match a with
  | GLoop j todo seen rest u => exists s0 u0, looping s0 u0 s1 j seen u /\ heading (j :: rest) s0 u0 /\ dom (tget (jtab j) s0) = todo ∪ seen /\ todo ## seen
  | GLook j k todo seen rest u => exists s0 u0, looping s0 u0 s1 j (seen ∖ {[k]}) u /\ heading (j :: rest) s0 u0 /\ dom (tget (jtab j) s0) = todo ∪ seen /\ todo ## seen /\
      k ∈ seen /\ exists t, j = JClean t
  | GDel j k todo seen rest u => exists s0 u0, looping s0 u0 s1 j (seen ∖ {[k]}) u /\ heading (j :: rest) s0 u0 /\ dom (tget (jtab j) s0) = todo ∪ seen /\ todo ## seen /\
      k ∈ seen /\ forall x, ~ keep j s0 (k, x)
  | GPeriod u => s1 = sF /\ ueq u uF
  | GSave u => s1 = sF /\ ueq u (mkupd (u_sths uF) (u_revs uF) (u_cons uF) (u_accs uF) (u_monitor uF) (pad2 m))
  | _ => False
  end.

Lemma part_all j s0 : part j s0 (dom (tget (jtab j) s0)) = filter (keep j s0) (tget (jtab j) s0).
Proof.
  apply map_filter_ext. intros i x L. split; [|by right]. intros [N|K]; [|done]. exfalso. apply N. cbn. apply elem_of_dom. by eexists.
Qed.
Lemma part_none j s0 : part j s0 ∅ = tget (jtab j) s0.
Proof. apply map_filter_id. intros i x L. left. set_solver. Qed.
Lemma got_all t s0 : got t s0 (dom (tget t s0)) = tget t s0.
Proof. apply map_filter_id. intros i x L. cbn. apply elem_of_dom. by eexists. Qed.
Lemma got_none t s0 : got t s0 ∅ = ∅.
Proof. apply map_filter_empty_iff. intros i x L H. cbn in H. set_solver. Qed.

Lemma vals_insert (t : gmap gid gobj) k o : t !! k = None -> vals (<[k := o]> t) ≡ₚ (vals t ++ [o])%list.
Proof. intros N. unfold vals. rewrite map_to_list_insert by done. cbn. by rewrite Permutation_app_comm. Qed.

Lemma got_more t s0 done k o : tget t s0 !! k = Some o -> k ∉ done -> vals (got t s0 ({[k]} ∪ done)) ≡ₚ (vals (got t s0 done) ++ [o])%list.
Proof.
  intros L N. replace (got t s0 ({[k]} ∪ done)) with (<[k := o]> (got t s0 done)).
  - apply vals_insert. unfold got. rewrite flt, L, decide_False; done.
  - apply map_eq. intros i. unfold got. destruct (decide (k = i)) as [<-|D].
    + rewrite lookup_insert, flt, L, decide_True; [done|]. cbn. set_solver.
    + rewrite lookup_insert_ne, !flt by done. destruct (tget t s0 !! i); [|done].
      destruct (decide (i ∈ done)) as [A|A]; [rewrite !decide_True; [done|cbn; set_solver|done]|rewrite !decide_False; [done|cbn; set_solver|done]].
Qed.

(** Nothing happens to a table if an entry that is kept was processed. *)
Lemma part_keep j s0 done k : (forall x, tget (jtab j) s0 !! k = Some x -> keep j s0 (k, x)) -> part j s0 ({[k]} ∪ done) = part j s0 done.
Proof.
  intros K. apply map_filter_ext. intros i x L. cbn. split.
  - intros [N|Q]; [left; set_solver|by right].
  - intros [N|Q]; [|by right]. destruct (decide (i = k)) as [->|D]; [right; by apply K|left; set_solver].
Qed.
Lemma part_drop j s0 done k : (forall x, ~ keep j s0 (k, x)) -> part j s0 ({[k]} ∪ done) = delete k (part j s0 done).
Proof.
  intros K. apply map_eq. intros i. unfold part. destruct (decide (k = i)) as [<-|D].
  - rewrite lookup_delete, flt. destruct (tget (jtab j) s0 !! k) as [x|]; [|done]. rewrite decide_False; [done|]. intros [N|Q]; [cbn in N; set_solver|by eapply K].
  - rewrite lookup_delete_ne, !flt by done. destruct (tget (jtab j) s0 !! i) as [x|]; [|done].
    destruct (decide (i ∈ done)) as [A|A], (decide (keep j s0 (i, x))) as [Q|Q].
    + rewrite !decide_True; [done|by right|by right].
    + rewrite !decide_False; [done|intros [N|?]; [cbn in N; set_solver|done]|intros [N|?]; [cbn in N; set_solver|done]].
    + rewrite !decide_True; [done|by right|by right].
    + rewrite !decide_True; [done|by left|left; cbn; set_solver].
Qed.

Lemma begin_tinv rest s u : heading rest s u -> tinv s (begin rest u s).
Proof.
  destruct rest as [|j r]; cbn [begin tinv].
  - intros [H1 H2]. by split.
  - intros H. exists s, u. split_and!; [|done|set_solver|set_solver]. split; [by rewrite part_none, tset_tget|].
    destruct j; try apply ueq_refl. rewrite got_none. apply ueq_refl.
Qed.

Lemma loop_end s0 u0 s1 j seen rest u : looping s0 u0 s1 j seen u -> heading (j :: rest) s0 u0 -> dom (tget (jtab j) s0) = seen -> heading rest s1 u.
Proof.
  intros [-> U] [H1 H2] <-. rewrite part_all. cbn [sem] in H1, H2. change (tset (jtab j) s0 (filter (keep j s0) (tget (jtab j) s0))) with (jstate j s0).
  assert (E : ueq u (jupd j s0 u0)). { destruct j; cbn [jupd]; try done. cbn [jtab] in U. by rewrite got_all in U. }
  destruct (sem_ueq rest (jstate j s0) _ _ E) as [E1 E2]. split; [by rewrite E1|by eapply ueq_trans].
Qed.

Lemma gstep_tinv s1 a k s2 b o : tinv s1 a -> gstep z c s1 a m stamp k = Some (s2, (b, o)) ->
  (exists a', b = Some a' /\ tinv s2 a' /\ o = []) \/
  (b = None /\ s2 = sF /\ exists u, ueq u (mkupd (u_sths uF) (u_revs uF) (u_cons uF) (u_accs uF) (u_monitor uF) (pad2 m)) /\
     o = [FUpdate ("Period_" ++ itoa (Z.of_nat m - mc_offset c)) u]).
Proof.
  intros T E. destruct a; try done; cbn [gstep] in E.
  - left. injection E as <- <- <-. eexists. split; [reflexivity|]. split; [|done].
    destruct T as (s0 & u0 & L & H & D & N).
    assert (B : todo = ∅ -> tinv s1 (begin rest u s1)).
    { intros ->. apply begin_tinv. eapply loop_end; [exact L|exact H|set_solver]. }
    destruct (bool_decide (k ∈ seen)) eqn:K.
    { match goal with |- context [@bool_decide (todo = ∅) ?d] => destruct (@bool_decide (todo = ∅) d) eqn:Z end.
      - apply bool_decide_eq_true in Z. by apply B.
      - exists s0, u0. by split_and!. }
    apply bool_decide_eq_false in K. pose proof L as [L1 L2].
    assert (Q : tget (jtab j) s1 !! k = tget (jtab j) s0 !! k).
    { rewrite L1, tget_own. unfold part. rewrite flt. destruct (tget (jtab j) s0 !! k); [|done]. rewrite decide_True; [done|by left]. }
    rewrite Q. destruct (tget (jtab j) s0 !! k) as [x|] eqn:X.
    + assert (Kt : k ∈ todo) by (apply (elem_of_dom_2 (D := gset gid)) in X; set_solver).
      assert (D' : dom (tget (jtab j) s0) = todo ∖ {[k]} ∪ ({[k]} ∪ seen)).
      { rewrite D. apply set_eq. intros i. rewrite !elem_of_union, elem_of_difference, elem_of_singleton. destruct (decide (i = k)) as [->|]; tauto. }
      assert (N' : todo ∖ {[k]} ## {[k]} ∪ seen) by set_solver.
      assert (L' : looping s0 u0 s1 j (({[k]} ∪ seen) ∖ {[k]}) u).
      { replace (({[k]} ∪ seen) ∖ {[k]}) with seen by set_solver. done. }
      destruct j as [t|t|t|t].
      * exists s0, u0. split_and!; try done; [set_solver|by exists t].
      * exists s0, u0. split_and!; try done; [set_solver|]. intros y []. 
      * destruct (String.eqb_spec (i_period k) (pad2 m)) as [Pe|Pe].
        -- exists s0, u0. split_and!; try done. split; [|done]. rewrite part_keep; [done|]. intros y _. exact Pe.
        -- exists s0, u0. split_and!; try done; set_solver.
      * exists s0, u0. split_and!; try done. split; [rewrite part_keep; [done|]; intros; exact I|].
        cbn [jtab] in *. eapply ueq_trans; [|apply ueq_sym, add_ueq; [by apply got_more|apply ueq_refl]].
        unfold add. rewrite fold_left_app. cbn [fold_left]. change (fold_left (λ u o, collect t o u) (vals (got t s0 seen)) u0) with (add t (vals (got t s0 seen)) u0).
        apply (add_ueq t [x] [x] u _ (reflexivity _)). exact L2.
    + match goal with |- context [@bool_decide (todo = ∅) ?d] => destruct (@bool_decide (todo = ∅) d) eqn:Z end.
      * apply bool_decide_eq_true in Z. by apply B.
      * assert (Kn : k ∉ todo).
        { intros Kt. assert (Kd : k ∈ dom (tget (jtab j) s0)) by (rewrite D; set_solver). apply elem_of_dom in Kd as [y Y]. congruence. }
        replace (todo ∖ {[k]}) with todo by set_solver. exists s0, u0. by split_and!.
  - left. injection E as <- <- <-. eexists. split; [reflexivity|]. split; [|done].
    destruct T as (s0 & u0 & L & H & D & N & Kin & (t & ->)). pose proof L as [L1 L2].
    assert (C : m_con s1 = m_con s0) by (rewrite L1; apply con_tset).
    destruct (bool_decide (is_Some (m_con s1 !! con_key (i_entity k0)))) eqn:B.
    + apply bool_decide_eq_true in B. exists s0, u0. split_and!; try done. intros x K. cbn in K. unfold unconvicted in K. rewrite C in B. cbn in K. rewrite K in B. by destruct B.
    + apply bool_decide_eq_false in B. exists s0, u0. split_and!; try done. split; [|done].
      replace seen with ({[k0]} ∪ seen ∖ {[k0]}) by (apply set_eq; intros i; rewrite elem_of_union, elem_of_difference, elem_of_singleton; destruct (decide (i = k0)) as [->|]; tauto).
      rewrite part_keep; [done|]. intros x _. cbn. unfold unconvicted. cbn. rewrite <- C. by apply eq_None_not_Some.
  - left. injection E as <- <- <-. eexists. split; [reflexivity|]. split; [|done].
    destruct T as (s0 & u0 & (L1 & L2) & H & D & N & Kin & Kn). exists s0, u0. split_and!; try done.
    assert (Sn : seen = {[k0]} ∪ seen ∖ {[k0]}) by (apply set_eq; intros i; rewrite elem_of_union, elem_of_difference, elem_of_singleton; destruct (decide (i = k0)) as [->|]; tauto).
    split.
    + rewrite L1, tget_own, tset_tset. f_equal. rewrite Sn at 2. by rewrite part_drop.
    + destruct j; try done. exfalso. by apply (Kn zero_obj).
  - left. injection E as <- <- <-. eexists. split; [reflexivity|]. split; [|done]. destruct T as [-> (A1 & A2 & A3 & A4 & A5 & A6)]. split; [done|]. by split_and!.
  - right. injection E as <- <- <-. destruct T as [-> U]. split; [done|]. split; [done|]. exists u. by split.
Qed.

Notation run := (frun z c).
Notation st k := (FStep 0 m stamp k).

Lemma run_idle s ks : run (mkfm s []) (map (λ k, st k) ks) = Some (mkfm s [], []).
Proof. induction ks as [|k ks IH]; cbn; [done|]. by rewrite IH. Qed.

Lemma step_one s a k : fstep z c (mkfm s [a]) (st k) =
  match gstep z c s a m stamp k with None => None | Some (s1, (b, o)) => Some (mkfm s1 (ol b), o) end.
Proof. cbn [fstep fm_go fm_st lookup list_lookup]. destruct (gstep z c s a m stamp k) as [[s1 [[b|] o]]|]; done. Qed.

Lemma run_tinv ks s a s2 o : tinv s a -> run (mkfm s [a]) (map (λ k, st k) ks) = Some (mkfm s2 [], o) ->
  s2 = sF /\ exists u, ueq u (mkupd (u_sths uF) (u_revs uF) (u_cons uF) (u_accs uF) (u_monitor uF) (pad2 m)) /\
     o = [FUpdate ("Period_" ++ itoa (Z.of_nat m - mc_offset c)) u].
Proof.
  revert s a o. induction ks as [|k ks IH]; intros s a o T; cbn [map frun]; [done|]. rewrite step_one.
  destruct (gstep z c s a m stamp k) as [[s1 [b o1]]|] eqn:G; [|done]. apply gstep_tinv in G; [|done].
  destruct G as [(a' & -> & T' & ->)|(-> & -> & u & U & ->)]; cbn [ol].
  - destruct (run (mkfm s1 [a']) (map (λ k, st k) ks)) as [[y o2]|] eqn:R; [|done]. intros [= -> <-]. by eapply IH.
  - rewrite run_idle. intros [= <- <-]. split; [done|]. by exists u.
Qed.

Definition fin (s : mst) (a : goro) : Prop := exists ks s' o, run (mkfm s [a]) (map (λ k, st k) ks) = Some (mkfm s' [], o).

Lemma fin_step s a k s1 b o : gstep z c s a m stamp k = Some (s1, (Some b, o)) -> fin s1 b -> fin s a.
Proof. intros G (ks & s' & o' & R). exists (k :: ks), s', (o ++ o')%list. cbn [map frun]. rewrite step_one, G. cbn [ol]. by rewrite R. Qed.

(** A goroutine that has begun a loop ends, if it ends after the loop. *)
Lemma fin_one rest : (forall s u, tinv s (begin rest u s) -> fin s (begin rest u s)) ->
  forall n todo, size todo = n -> forall s j seen u, tinv s (GLoop j todo seen rest u) -> fin s (GLoop j todo seen rest u).
Proof.
  intros B n. induction n as [n IH] using lt_wf_ind. intros todo E s j seen u T.
  assert (Again : forall k, k ∈ todo -> forall s' seen' u', tinv s' (GLoop j (todo ∖ {[k]}) seen' rest u') -> fin s' (GLoop j (todo ∖ {[k]}) seen' rest u')).
  { intros k K s' seen' u' T'. eapply (IH (size (todo ∖ {[k]}))); [|done|done]. rewrite <- E. apply subset_size. set_solver. }
  assert (Go : forall s' a k, tinv s' a -> exists s1 b o, gstep z c s' a m stamp k = Some (s1, (b, o)) /\
    ((exists a', b = Some a' /\ tinv s1 a' /\ o = []) \/ b = None)).
  { intros s' a k T'. destruct (gstep z c s' a m stamp k) as [[s1 [b o]]|] eqn:G.
    - exists s1, b, o. split; [done|]. apply gstep_tinv in G; [|done]. destruct G as [G|[G _]]; auto.
    - exfalso. destruct a; try done. }
  destruct (set_choose_or_empty todo) as [[k K]|Em].
  - assert (Kn : k ∉ seen) by (destruct T as (? & ? & _ & _ & _ & N); set_solver).
    destruct (Go s _ k T) as (s1 & b & o & G & Q). pose proof G as H. cbn [gstep] in H. injection H as Es Eb Eo. rewrite bool_decide_eq_false_2 in Eb by done.
    destruct Q as [(a' & -> & T' & ->)|Q]; [|by subst b].
    apply (fin_step _ _ k _ _ _ G). subst s1. injection Eb as Eb.
    assert (Nt : todo <> ∅) by set_solver.
    destruct (tget (jtab j) s !! k) as [x|].
    + destruct j as [t|t|t|t].
      * subst a'. destruct (Go s _ k T') as (s2 & b2 & o2 & G2 & Q2). pose proof G2 as H2. cbn [gstep] in H2. injection H2 as Es2 Eb2 Eo2. subst s2.
        destruct Q2 as [(a2 & -> & T2 & ->)|Q2]; [|by subst b2]. apply (fin_step _ _ k _ _ _ G2). injection Eb2 as Eb2.
        destruct (bool_decide (is_Some (m_con s !! con_key (i_entity k)))); subst a2; [|by apply Again].
        destruct (Go s _ k T2) as (s3 & b3 & o3 & G3 & Q3). pose proof G3 as H3. cbn [gstep] in H3. injection H3 as Es3 Eb3 Eo3.
        destruct Q3 as [(a3 & -> & T3 & ->)|Q3]; [|by subst b3]. apply (fin_step _ _ k _ _ _ G3). injection Eb3 as <-. by apply Again.
      * subst a'. destruct (Go s _ k T') as (s3 & b3 & o3 & G3 & Q3). pose proof G3 as H3. cbn [gstep] in H3. injection H3 as Es3 Eb3 Eo3.
        destruct Q3 as [(a3 & -> & T3 & ->)|Q3]; [|by subst b3]. apply (fin_step _ _ k _ _ _ G3). injection Eb3 as <-. by apply Again.
      * destruct (String.eqb (i_period k) (pad2 m)); subst a'; [by apply Again|].
        destruct (Go s _ k T') as (s3 & b3 & o3 & G3 & Q3). pose proof G3 as H3. cbn [gstep] in H3. injection H3 as Es3 Eb3 Eo3.
        destruct Q3 as [(a3 & -> & T3 & ->)|Q3]; [|by subst b3]. apply (fin_step _ _ k _ _ _ G3). injection Eb3 as <-. by apply Again.
      * subst a'. by apply Again.
    + rewrite bool_decide_eq_false_2 in Eb by done. subst a'. by apply Again.
  - set (k := mkgid "" "" ""). apply leibniz_equiv in Em.
    destruct (Go s _ k T) as (s1 & b & o & G & Q). pose proof G as G'. cbn [gstep] in G'. injection G' as Es Eb Eo. subst s1.
    destruct Q as [(a' & -> & T' & ->)|Q]; [|by subst b]. injection Eb as Eb. apply (fin_step _ _ k _ _ _ G).
    destruct (bool_decide (k ∈ seen)) eqn:K.
    + rewrite bool_decide_eq_true_2 in Eb by done. subst a'. by apply B.
    + apply bool_decide_eq_false in K. destruct T as (s0 & u0 & (L1 & _) & _ & D & _).
      assert (X : tget (jtab j) s !! k = None).
      { rewrite L1, tget_own. unfold part. rewrite flt. destruct (tget (jtab j) s0 !! k) as [x|] eqn:Y; [|done]. exfalso. apply K.
        apply (elem_of_dom_2 (D := gset gid)) in Y. rewrite D, Em in Y. set_solver. }
      rewrite X, bool_decide_eq_true_2 in Eb by done. subst a'. by apply B.
Qed.

Lemma fin_begin rest s u : tinv s (begin rest u s) -> fin s (begin rest u s).
Proof.
  revert s u. induction rest as [|j r IH]; intros s u T.
  - exists [mkgid "" "" ""; mkgid "" "" ""]. eexists _, _. reflexivity.
  - eapply fin_one; [exact IH|reflexivity|exact T].
Qed.
End goal.

(** ** The whole task *)
Lemma filter_con t s v kv : unconvicted (tset t s v) kv <-> unconvicted s kv.
Proof. unfold unconvicted. by rewrite con_tset. Qed.

Definition uend (s : mst) : update := mkupd (vals (m_sth s)) (vals (m_rev s)) (vals (m_con_d s)) (vals (m_acc_d s)) (cc_self (mc_crypto c)) "".

Lemma flt_false (t : gmap gid gobj) (Q : gid * gobj -> Prop) `{!forall x, Decision (Q x)} : (forall x, ~ Q x) -> filter Q t = ∅.
Proof. intros N. apply map_filter_empty_iff. intros i x L Y. by eapply N. Qed.
Lemma flt_true (t : gmap gid gobj) (Q : gid * gobj -> Prop) `{!forall x, Decision (Q x)} : (forall x, Q x) -> filter Q t = t.
Proof. intros N. apply map_filter_id. intros i x L. apply N. Qed.
Lemma flt_same (t : gmap gid gobj) (Q R : gid * gobj -> Prop) `{!forall x, Decision (Q x)} `{!forall x, Decision (R x)} : (forall x, Q x <-> R x) -> filter Q t = filter R t.
Proof. intros N. apply map_filter_ext. intros i x L. apply N. Qed.

Definition only (co : gmap gid gobj) : mst := mkmst ∅ co ∅ ∅ ∅ ∅ ∅ ∅ [] ∅.
Lemma js_clean_sth tm co ac cd ad sh rv cr ts fs : jstate (JClean TSth) (mkmst tm co ac cd ad sh rv cr ts fs) = mkmst tm co ac cd ad (filter (unconvicted (only co)) sh) rv cr ts fs.
Proof. unfold jstate. cbn [jtab tget tset m_sth]. f_equal; by apply flt_same. Qed.
Lemma js_clean_rev tm co ac cd ad sh rv cr ts fs : jstate (JClean TRev) (mkmst tm co ac cd ad sh rv cr ts fs) = mkmst tm co ac cd ad sh (filter (unconvicted (only co)) rv) cr ts fs.
Proof. unfold jstate. cbn [jtab tget tset m_rev]. f_equal; by apply flt_same. Qed.
Lemma js_temp tm co ac cd ad sh rv cr ts fs : jstate (JWipeAll TTemp) (mkmst tm co ac cd ad sh rv cr ts fs) = mkmst ∅ co ac cd ad sh rv cr ts fs.
Proof. unfold jstate. cbn [jtab tget tset m_temp]. f_equal. apply flt_false. by intros ? []. Qed.
Lemma js_wipe_sth tm co ac cd ad sh rv cr ts fs : jstate (JWipe TSth) (mkmst tm co ac cd ad sh rv cr ts fs) = mkmst tm co ac cd ad (filter (of_period (pad2 m)) sh) rv cr ts fs.
Proof. unfold jstate. cbn [jtab tget tset m_sth]. f_equal; by apply flt_same. Qed.
Lemma js_wipe_rev tm co ac cd ad sh rv cr ts fs : jstate (JWipe TRev) (mkmst tm co ac cd ad sh rv cr ts fs) = mkmst tm co ac cd ad sh (filter (of_period (pad2 m)) rv) cr ts fs.
Proof. unfold jstate. cbn [jtab tget tset m_rev]. f_equal; by apply flt_same. Qed.
Lemma js_wipe_cond tm co ac cd ad sh rv cr ts fs : jstate (JWipe TConD) (mkmst tm co ac cd ad sh rv cr ts fs) = mkmst tm co ac (filter (of_period (pad2 m)) cd) ad sh rv cr ts fs.
Proof. unfold jstate. cbn [jtab tget tset m_con_d]. f_equal; by apply flt_same. Qed.
Lemma js_wipe_accd tm co ac cd ad sh rv cr ts fs : jstate (JWipe TAccD) (mkmst tm co ac cd ad sh rv cr ts fs) = mkmst tm co ac cd (filter (of_period (pad2 m)) ad) sh rv cr ts fs.
Proof. unfold jstate. cbn [jtab tget tset m_acc_d]. f_equal; by apply flt_same. Qed.
Lemma js_collect t s : jstate (JCollect t) s = s.
Proof. unfold jstate. rewrite (flt_true _ (keep (JCollect t) s)) by (intros ?; exact I). apply tset_tget. Qed.

Lemma sem_task s : sem task s (empty_update c) = (wipe m (clean s), uend (wipe m (clean s))).
Proof.
  destruct s as [tm co ac cd ad sh rv cr ts fs]. unfold task. cbn [sem].
  rewrite js_clean_sth, js_clean_rev, js_temp, js_wipe_sth, js_wipe_rev, js_wipe_cond, js_wipe_accd, !js_collect.
  cbn [jupd]. rewrite !add_lists.
  assert (F : forall x, filter (unconvicted (mkmst tm co ac cd ad sh rv cr ts fs)) x = filter (unconvicted (only co)) x) by (intros x; by apply flt_same).
  unfold wipe, clean. cbn [m_temp m_con m_acc m_con_d m_acc_d m_sth m_rev m_crv m_timers m_files]. rewrite !F. reflexivity.
Qed.

Lemma task_begins s : tinv (wipe m (clean s)) (uend (wipe m (clean s))) s (begin task (empty_update c) s).
Proof. apply begin_tinv. unfold heading. rewrite sem_task. split; [done|apply ueq_refl]. Qed.

Lemma task_alone s ks s2 o : frun z c (mkfm s []) (FTask :: map (λ k, FStep 0 m stamp k) ks) = Some (mkfm s2 [], o) ->
  s2 = wipe m (clean s) /\ exists u, ueq u (generate_update c s2 m) /\ o = [FUpdate ("Period_" ++ itoa (Z.of_nat m - mc_offset c)) u].
Proof.
  cbn [frun fstep]. change (spawn (mkfm s []) (Some (begin task (empty_update c) s))) with (mkfm s [begin task (empty_update c) s]).
  cbn [fm_st]. intros R. destruct (frun z c (mkfm s [begin task (empty_update c) s]) (map (λ k, FStep 0 m stamp k) ks)) as [[y o2]|] eqn:Q.
  - change (spawn (mkfm s []) (Some (begin task (empty_update c) s))) with (mkfm s [begin task (empty_update c) s]) in R. rewrite Q in R. injection R as -> <-.
    apply (run_tinv _ _ _ _ _ _ _ (task_begins s)) in Q. destruct Q as [-> (u & U & ->)]. split; [done|]. exists u. by split.
  - change (spawn (mkfm s []) (Some (begin task (empty_update c) s))) with (mkfm s [begin task (empty_update c) s]) in R. by rewrite Q in R.
Qed.

Lemma task_ends s : exists ks s2 o, frun z c (mkfm s []) (FTask :: map (λ k, FStep 0 m stamp k) ks) = Some (mkfm s2 [], o).
Proof.
  destruct (fin_begin _ _ task s (empty_update c) (task_begins s)) as (ks & s2 & o & R). exists ks, s2, o.
  cbn [frun fstep]. change (spawn (mkfm s []) (Some (begin task (empty_update c) (fm_st (mkfm s []))))) with (mkfm s [begin task (empty_update c) s]). by rewrite R.
Qed.
End task.

(** ** Histories *)
Section history.
Context {P : prims} (z : gzip) (c : mconf (P := P)).

Lemma runs_app y l1 l2 : frun z c y (l1 ++ l2) =
  match frun z c y l1 with None => None | Some (y1, o1) => match frun z c y1 l2 with None => None | Some (y2, o2) => Some (y2, (o1 ++ o2)%list) end end.
Proof.
  revert y. induction l1 as [|e r IH]; intros y; cbn [frun app]; [by destruct (frun z c y l2) as [[]|]|].
  destruct (fstep z c y e) as [[y1 o1]|]; [|done]. rewrite IH. destruct (frun z c y1 r) as [[y2 o2]|]; [|done].
  destruct (frun z c y2 l2) as [[y3 o3]|]; [|done]. by rewrite app_assoc.
Qed.

Lemma step_alone s e s' o : handler e -> mstep z c s e = Some (s', o) -> exists l, frun z c (mkfm s []) l = Some (mkfm s' [], map fo o).
Proof.
  intros H E. set (k := mkgid "" "" ""). destruct e as [g|m|m|f url r|n m stamp| | |]; try done; cbn [mstep] in E.
  - injection E as E. destruct (gossip_alone z c 0 "" s g k) as [n R]. rewrite E in R. eexists. exact R.
  - injection E as <- <-. destruct (query_alone z c m "" s Sth k) as [n R]. eexists. exact R.
  - injection E as <- <-. destruct (query_alone z c m "" s Rev k) as [n R]. eexists. exact R.
  - destruct (reply_alone z c 0 "" s f url r k s' o E) as [n R]. eexists. exact R.
  - destruct (m_timers s !! n) as [t|] eqn:T; injection E as E.
    + destruct (fire_alone z c m stamp s n t k T) as [j R]. rewrite E in R. eexists. exact R.
    + subst s' o. exists []. done.
Qed.

Lemma history_alone l : forall s s' o, Forall handler l -> mrun z c s l = Some (s', o) -> exists l', frun z c (mkfm s []) l' = Some (mkfm s' [], map fo o).
Proof.
  induction l as [|e r IH]; intros s s' o F R; cbn [mrun] in R; [injection R as <- <-; by exists []|]. inversion F as [|? ? He Fr]; subst.
  destruct (mstep z c s e) as [[s1 o1]|] eqn:E; [|done]. destruct (mrun z c s1 r) as [[s2 o2]|] eqn:Q; [|done]. injection R as <- <-.
  destruct (step_alone _ _ _ _ He E) as [l1 R1]. destruct (IH _ _ _ Fr Q) as [l2 R2]. exists (l1 ++ l2)%list. rewrite map_app. by rewrite runs_app, R1, R2.
Qed.

Lemma death_alone l : forall s, Forall handler l -> mrun z c s l = None -> exists l', frun z c (mkfm s []) l' = None.
Proof.
  induction l as [|e r IH]; intros s F R; cbn [mrun] in R; [done|]. inversion F as [|? ? He Fr]; subst.
  destruct (mstep z c s e) as [[s1 o1]|] eqn:E.
  - destruct (mrun z c s1 r) as [[s2 o2]|] eqn:Q; [done|]. destruct (step_alone _ _ _ _ He E) as [l1 R1]. destruct (IH _ Fr Q) as [l2 R2].
    exists (l1 ++ l2)%list. by rewrite runs_app, R1, R2.
  - destruct e as [g|m|m|f url p|n m stamp| | |]; try done; cbn [mstep] in E; [|by destruct (m_timers s !! n)].
    destruct (reply_panics z c 0 "" s f url p (mkgid "" "" "") E) as [n Q]. eexists. exact Q.
Qed.
End history.
