(** Facts about files and directories. *)
From Verif Require Import Bytes Base64 Pem PemFacts Disk SpecDisk.
From Coq Require Import Lia.
Open Scope string_scope.

Lemma substring_all s : substring 0 (len s) s = s.
Proof. induction s as [|c s IH]; [done|]. cbn. unfold len in IH. by rewrite IH. Qed.

Lemma substring_prefix s k : exists u, substring 0 k s ++ u = s.
Proof.
  revert k. induction s as [|c s IH]; intros k; [exists ""; by destruct k|].
  destruct k as [|k]; [by exists (String c s)|]. destruct (IH k) as [u E]. exists u. cbn. by rewrite E.
Qed.

Lemma create_some o d p d1 : create o d p = Some d1 -> d1 = <[p := File ""]> d /\ d !! p <> Some Folder.
Proof.
  unfold create. destruct (d !! p) as [[t|]|] eqn:E; [|discriminate|];
    (destruct (parent p); [|discriminate]; destruct (_ && _); [|discriminate]; intros [= <-]; done).
Qed.

Lemma create_ok o d p x : d !! p = Some Folder -> d !! (p ++ [x])%list <> Some Folder -> os_create o (p ++ [x])%list = true ->
  create o d (p ++ [x])%list = Some (<[(p ++ [x])%list := File ""]> d).
Proof.
  intros H N Ho. unfold create. assert (E : parent (p ++ [x])%list = Some p).
  { unfold parent. rewrite rev_app_distr. cbn. by rewrite rev_involutive. }
  rewrite E, Ho. destruct (d !! (p ++ [x])%list) as [[t|]|]; [|done|]; by rewrite bool_decide_eq_true_2.
Qed.

(** ** Certificates and keys *)
Lemma certificate_back o d bs p d' : save_certificate o d bs p = (d', true) ->
  read_certificate d' p = Some bs /\ (exists t, read_file d' p = Some t /\ pem_decode t = Some (mkblock "CERTIFICATE" false bs, "")) /\
  forall q, q <> p -> d' !! q = d !! q.
Proof.
  unfold save_certificate. destruct (create o d p) as [d1|] eqn:E; [|discriminate].
  apply create_some in E as [-> _]. intros [= <-]. unfold write_all, written. rewrite substring_all.
  unfold read_certificate, read_file. rewrite lookup_insert.
  rewrite <- (app_nil_s (pem_encode _ _)), decode_encode by done. split; [done|]. split; [eexists; split; [done|]; by rewrite decode_encode|].
  intros q Hq. by rewrite !lookup_insert_ne.
Qed.

Lemma certificate_saved o d bs p x : d !! p = Some Folder -> d !! (p ++ [x])%list <> Some Folder ->
  os_create o (p ++ [x])%list = true -> snd (save_certificate o d bs (p ++ [x])) = true.
Proof. intros H N Ho. unfold save_certificate. by rewrite (create_ok o d p x H N Ho). Qed.

Lemma certificate_refused o d bs p d' : save_certificate o d bs p = (d', false) -> d' = d.
Proof. unfold save_certificate. destruct (create o d p); [discriminate|]. by intros [= ->]. Qed.

Lemma key_back K o d k p d' : pkcs8_ok K -> save_key K o d k p = (d', true) ->
  read_key K d' p = Some k /\ (exists t bs, read_file d' p = Some t /\ pem_decode t = Some (mkblock "PRIVATE KEY" false bs, "") /\ pk_marshal K k = Some bs) /\
  forall q, q <> p -> d' !! q = d !! q.
Proof.
  intros HK. unfold save_key. destruct (create o d p) as [d1|] eqn:E; [|discriminate].
  apply create_some in E as [-> _]. destruct (pk_marshal K k) as [bs|] eqn:Ek; [|discriminate].
  intros [= <-]. unfold write_all, written. rewrite substring_all.
  unfold read_key, read_file. rewrite lookup_insert.
  rewrite <- (app_nil_s (pem_encode _ _)), decode_encode by done. cbn [pb_bytes]. rewrite (HK k bs Ek). split; [done|]. split; [eexists _, bs; split; [done|]; split; [by rewrite decode_encode|done]|].
  intros q Hq. by rewrite !lookup_insert_ne.
Qed.

(** Interrupted saves. *)
Lemma saving_states o d bs p d' : d' ∈ saving o d (pem_encode "CERTIFICATE" bs) p ->
  (forall q, q <> p -> d' !! q = d !! q) /\
  (d' = d \/ read_certificate d' p = None \/ read_certificate d' p = Some bs).
Proof.
  unfold saving. destruct (create o d p) as [d1|] eqn:E.
  2: { intros ->%elem_of_list_singleton. split; [done|by left]. }
  apply create_some in E as [-> _]. intros [->|H]%elem_of_cons; [split; [done|by left]|].
  apply elem_of_list_In, in_map_iff in H as (k & <- & _). unfold written. split.
  { intros q Hq. by rewrite !lookup_insert_ne. }
  right. unfold read_certificate, read_file. rewrite lookup_insert.
  destruct (substring_prefix (pem_encode "CERTIFICATE" bs) k) as [u Hu].
  destruct (decode_prefix "CERTIFICATE" bs eq_refl _ _ Hu) as [-> | ->]; [by left|by right].
Qed.

(** No BEGIN marker, no certificate. *)
Lemma no_marker d p t : d !! p = Some (File t) -> (forall a r, t <> a ++ "-----BEGIN " ++ r) -> read_certificate d p = None.
Proof.
  intros E H. unfold read_certificate, read_file. rewrite E. unfold pem_decode. cbn [pem_loop].
  destruct (strip_prefix pem_start t) as [r|] eqn:E1.
  { apply strip_prefix_some in E1. by destruct (H "" r). }
  destruct (cut (nl ++ pem_start) t) as [[a r]|] eqn:E2; [|done].
  apply cut_some in E2. destruct (H (a ++ nl) r). rewrite E2, !app_assoc_s. done.
Qed.

(** ** Removal *)
(** Entries at or below [p] may be missing, nothing else has changed. *)
Definition pruned (p : fpath) (d d' : fs) : Prop := forall q, d' !! q = d !! q \/ (below p q /\ d' !! q = None).

Lemma below_refl p : below p p.
Proof. exists []. by rewrite app_nil_r. Qed.
Lemma below_child p x q : below (p ++ [x])%list q -> below p q.
Proof. intros [k ->]. exists ([x] ++ k)%list. by rewrite app_assoc. Qed.
Lemma pruned_refl p d : pruned p d d.
Proof. intros q. by left. Qed.
Lemma pruned_trans p d1 d2 d3 : pruned p d1 d2 -> pruned p d2 d3 -> pruned p d1 d3.
Proof.
  intros H1 H2 q. destruct (H2 q) as [E2|[B E2]]; [|by right]. destruct (H1 q) as [E1|[B E1]].
  - left. by rewrite E2.
  - right. split; [done|]. by rewrite E2.
Qed.
Lemma pruned_child p x d d' : pruned (p ++ [x])%list d d' -> pruned p d d'.
Proof. intros H q. destruct (H q) as [E|[B E]]; [by left|]. right. split; [exact (below_child _ _ _ B)|done]. Qed.
Lemma pruned_delete p d : pruned p d (delete p d).
Proof.
  intros q. destruct (decide (q = p)) as [->|N]; [|left; by rewrite lookup_delete_ne].
  right. split; [apply below_refl|]. by rewrite lookup_delete.
Qed.

Lemma remove_some o d p d' : remove o d p = Some d' ->
  d' = delete p d /\ (d !! p = Some Folder -> os_list o d p = []).
Proof.
  unfold remove. destruct (d !! p) as [e|]; [|discriminate].
  destruct (_ && _) eqn:E; [|discriminate]. apply andb_true_iff in E as [_ E]. intros [= <-]. split; [done|].
  intros [= ->]. by apply bool_decide_eq_true_1 in E.
Qed.

Lemma app_one_inj (p q : fpath) x y : (p ++ [x])%list = (q ++ [y])%list -> p = q /\ x = y.
Proof. apply app_inj_tail. Qed.

Section facts.
Context (o : os) (Ho : lists_entries o).

Lemma remove_tree d p d' : tree d -> remove o d p = Some d' -> tree d'.
Proof using Ho.
  intros T H. apply remove_some in H as [-> Hc]. intros q x [e He].
  rewrite lookup_delete_Some in He. destruct He as [N He].
  assert (Hq := T q x ltac:(by exists e)).
  destruct (decide (q = p)) as [->|Nq]; [|by rewrite lookup_delete_ne].
  exfalso. specialize (Hc Hq). destruct (Ho d p) as [_ L].
  assert (Hx : x ∈ os_list o d p) by (apply L; by exists e). rewrite Hc in Hx. by apply elem_of_nil in Hx.
Qed.

(** A step of the walk: [pruned], trees stay trees, and success means gone. *)
Definition walks (p : fpath) (d : fs) (r : fs * bool) : Prop :=
  pruned p d (fst r) /\ (tree d -> tree (fst r)) /\ (snd r = true -> fst r !! p = None).

Lemma entries_walk rec d0 p l : (forall d q, walks q d (rec d q)) -> forall d,
  pruned p d (fst (delete_entries o rec d0 d p l)) /\ (tree d -> tree (fst (delete_entries o rec d0 d p l))).
Proof using Ho.
  intros Hr. induction l as [|x l IH]; intros d; [split; [apply pruned_refl|done]|].
  cbn [delete_entries].
  assert (Hs : forall r, r = (if is_folder d0 (p ++ [x])%list then rec d (p ++ [x])%list
               else match remove o d (p ++ [x])%list with Some d => (d, true) | None => (d, false) end) ->
               pruned p d (fst r) /\ (tree d -> tree (fst r))).
  { intros r ->. destruct (is_folder d0 _).
    - destruct (Hr d (p ++ [x])%list) as (H1 & H2 & _). split; [exact (pruned_child _ _ _ _ H1)|done].
    - destruct (remove o d _) as [d'|] eqn:E; [|split; [apply pruned_refl|done]].
      split; [|intros T; exact (remove_tree _ _ _ T E)].
      apply remove_some in E as [-> _]. exact (pruned_child _ _ _ _ (pruned_delete _ _)). }
  specialize (Hs _ eq_refl). destruct Hs as [P1 T1].
  set (r := if is_folder d0 _ then _ else _) in *. destruct (snd r); [|by split].
  destruct (IH (fst r)) as [P2 T2]. split; [exact (pruned_trans _ _ _ _ P1 P2)|auto].
Qed.

Lemma rec_walk n : forall d p, walks p d (delete_rec o n d p).
Proof using Ho.
  induction n as [|n IH]; intros d p; [split; [apply pruned_refl|done]|].
  cbn [delete_rec]. destruct (is_folder d p && os_open o p); [|split; [apply pruned_refl|done]].
  destruct (entries_walk (delete_rec o n) d p (os_list o d p) IH d) as [P T].
  set (r := delete_entries o _ d d p _) in *.
  destruct (snd r) eqn:E; [|split; [done|split; [done|by rewrite E]]].
  destruct (remove o (fst r) p) as [d'|] eqn:Er; [|split; [done|split; done]].
  assert (Er' := Er). apply remove_some in Er' as [-> _].
  split; [exact (pruned_trans _ _ _ _ P (pruned_delete _ _))|]. split.
  - intros Td. exact (remove_tree _ _ _ (T Td) Er).
  - intros _. apply lookup_delete.
Qed.

Lemma tree_gone d p q : tree d -> d !! p = None -> below p q -> d !! q = None.
Proof using.
  intros T E [k ->]. induction k as [|x k IH] using rev_ind; [by rewrite app_nil_r|].
  destruct (d !! (p ++ k ++ [x])%list) as [e|] eqn:Ee; [|done].
  rewrite app_assoc in Ee. by rewrite (T _ _ ltac:(by exists e)) in IH.
Qed.

(** ** Success *)
Definition shallow (n : nat) (d : fs) (p : fpath) : Prop := forall k, is_Some (d !! (p ++ k)%list) -> length k < n.

Lemma pruned_some p d d' q : pruned p d d' -> is_Some (d' !! q) -> is_Some (d !! q).
Proof using. intros H [e He]. destruct (H q) as [E|[_ E]]; [exists e; congruence|congruence]. Qed.

Lemma below_other p x y q : x <> y -> below (p ++ [x])%list q -> below (p ++ [y])%list q -> False.
Proof using.
  intros N [k ->] [k' E]. rewrite <- !app_assoc in E. apply app_inv_head in E. cbn in E. congruence.
Qed.

Lemma rec_success n : forall d p, tree d -> d !! p = Some Folder -> unhindered o p -> shallow n d p ->
  snd (delete_rec o n d p) = true.
Proof using Ho.
  induction n as [|n IH]; intros d p T Hp U Sh.
  { specialize (Sh [] ltac:(rewrite app_nil_r; by exists Folder)). cbn in Sh. lia. }
  cbn [delete_rec]. unfold is_folder. rewrite bool_decide_eq_true_2 by done.
  rewrite (proj1 (U p (below_refl p))). cbn [andb].
  (* the loop *)
  assert (L : forall l d1, NoDup l -> tree d1 -> pruned p d d1 -> d1 !! p = Some Folder ->
            (forall x q, x ∈ l -> below (p ++ [x])%list q -> d1 !! q = d !! q) ->
            (forall x, is_Some (d1 !! (p ++ [x])%list) -> x ∈ l) ->
            (forall x, x ∈ l -> is_Some (d !! (p ++ [x])%list)) ->
            let r := delete_entries o (delete_rec o n) d d1 p l in
            snd r = true /\ fst r !! p = Some Folder /\ forall x, fst r !! (p ++ [x])%list = None).
  { induction l as [|x l IHl]; intros d1 ND T1 P1 Hp1 Hl Hc Hs.
    - cbn. split; [done|]. split; [done|]. intros x. destruct (d1 !! (p ++ [x])%list) as [e|] eqn:E; [|done].
      assert (H := Hc x ltac:(by exists e)). by apply elem_of_nil in H.
    - cbn [delete_entries]. apply NoDup_cons in ND as [Nx ND].
      set (q := (p ++ [x])%list) in *.
      assert (Eq : d1 !! q = d !! q) by (apply (Hl x); [left|apply below_refl]).
      assert (Uq : unhindered o q) by (intros q' B; apply U; exact (below_child _ _ _ B)).
      assert (Hstep : forall r, r = (if is_folder d q then delete_rec o n d1 q
               else match remove o d1 q with Some d => (d, true) | None => (d1, false) end) ->
               snd r = true /\ pruned q d1 (fst r) /\ tree (fst r) /\ fst r !! q = None).
      { intros r ->. unfold is_folder. destruct (bool_decide_reflect (d !! q = Some Folder)) as [Ef|Nf].
        - assert (R : snd (delete_rec o n d1 q) = true).
          { apply IH; [done|by rewrite Eq|done|]. intros k Hk.
            assert (H := Sh (x :: k)). cbn in H. enough (S (length k) < S n) by lia. apply H.
            replace (p ++ x :: k)%list with (q ++ k)%list by (unfold q; by rewrite <- app_assoc).
            exact (pruned_some _ _ _ _ P1 Hk). }
          destruct (rec_walk n d1 q) as (W1 & W2 & W3). auto.
        - assert (Hx := Hs x ltac:(left)). fold q in Hx. destruct Hx as [e He].
          assert (R : remove o d1 q = Some (delete q d1)).
          { unfold remove. rewrite Eq, He, (proj2 (Uq q (below_refl q))). destruct e; done. }
          rewrite R. split; [done|]. split; [apply pruned_delete|]. split; [exact (remove_tree _ _ _ T1 R)|].
          apply lookup_delete. }
      specialize (Hstep _ eq_refl). set (r := if is_folder d q then _ else _) in *.
      destruct Hstep as (R1 & R2 & R3 & R4). rewrite R1.
      apply IHl; [done|done| | | | |].
      + exact (pruned_trans _ _ _ _ P1 (pruned_child _ _ _ _ R2)).
      + destruct (R2 p) as [E|[B _]]; [by rewrite E|]. destruct B as [k Hk].
        assert (Le := f_equal length Hk). unfold q in Le. rewrite !app_length in Le. cbn in Le. lia.
      + intros y q' Hy B. rewrite <- (Hl y q' ltac:(by right) B).
        destruct (R2 q') as [E|[B' _]]; [done|]. exfalso. apply (below_other p x y q'); [|done|done].
        intros ->. done.
      + intros y Hy. assert (Hy1 := pruned_some _ _ _ _ R2 Hy). apply Hc in Hy1.
        apply elem_of_cons in Hy1 as [->|]; [|done]. fold q in Hy. rewrite R4 in Hy. by destruct Hy.
      + intros y Hy. apply Hs. by right. }
  destruct (Ho d p) as [ND El].
  specialize (L (os_list o d p) d ND T (pruned_refl _ _) Hp ltac:(done) (λ x, proj2 (El x)) (λ x, proj1 (El x))).
  cbn zeta in L. set (r := delete_entries o _ d d p _) in *. destruct L as (L1 & L2 & L3).
  rewrite L1. unfold remove. rewrite L2, (proj2 (U p (below_refl p))). cbn [andb].
  destruct (Ho (fst r) p) as [_ El']. destruct (os_list o (fst r) p) as [|x l]; [done|].
  assert (H := proj1 (El' x) ltac:(left)). rewrite L3 in H. by destruct H.
Qed.

(** Trees are not deeper than they have entries. *)
Lemma tree_prefix d p r : tree d -> is_Some (d !! (p ++ r)%list) -> is_Some (d !! p).
Proof using.
  intros T. induction r as [|x r IH] using rev_ind; [by rewrite app_nil_r|].
  intros H. apply IH. rewrite app_assoc in H. rewrite (T _ _ H). by exists Folder.
Qed.

Lemma tree_depth d p : tree d -> shallow (S (size d)) d p.
Proof using.
  intros T k Hk.
  set (L := (λ i, (p ++ take i k)%list) <$> seq 0 (S (length k))).
  assert (ND : NoDup L).
  { apply NoDup_fmap_2_strong; [|apply NoDup_seq].
    intros i j Hi Hj E. apply app_inv_head in E. apply (f_equal length) in E.
    apply elem_of_seq in Hi, Hj. rewrite !take_length in E. lia. }
  assert (Sub : (list_to_set L : gset (list string)) ⊆ dom d).
  { intros q Hq. apply elem_of_list_to_set, elem_of_list_fmap in Hq as (i & -> & _).
    apply elem_of_dom. apply (tree_prefix d _ (drop i k) T). by rewrite <- app_assoc, take_drop. }
  apply subseteq_size in Sub. rewrite size_list_to_set in Sub by done. rewrite size_dom in Sub.
  unfold L in Sub. rewrite fmap_length, seq_length in Sub. lia.
Qed.

(** ** What DeleteFilesAndDirectories does *)
Lemma delete_only d p q : let d' := fst (delete_tree o d p) in d' !! q = d !! q \/ (below p q /\ d' !! q = None).
Proof using Ho. apply (rec_walk (S (size d)) d p). Qed.

Lemma delete_all d p : tree d -> snd (delete_tree o d p) = true -> forall q,
  (below p q -> fst (delete_tree o d p) !! q = None) /\ (~ below p q -> fst (delete_tree o d p) !! q = d !! q).
Proof using Ho.
  intros T H q. destruct (rec_walk (S (size d)) d p) as (W1 & W2 & W3). split.
  - apply tree_gone; [exact (W2 T)|exact (W3 H)].
  - intros N. destruct (W1 q) as [E|[B _]]; [exact E|done].
Qed.

Lemma delete_tree_tree d p : tree d -> tree (fst (delete_tree o d p)).
Proof using Ho. apply (rec_walk (S (size d)) d p). Qed.

Lemma delete_succeeds d p : tree d -> d !! p = Some Folder -> unhindered o p -> snd (delete_tree o d p) = true.
Proof using Ho. intros T Hp U. apply rec_success; auto using tree_depth. Qed.

Lemma delete_not_folder d p : d !! p <> Some Folder -> delete_tree o d p = (d, false).
Proof using. intros N. unfold delete_tree. cbn [delete_rec]. unfold is_folder. by rewrite bool_decide_eq_false_2. Qed.
End facts.
