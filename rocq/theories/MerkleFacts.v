(** Proofs about Merkle trees. *)
From Verif Require Import Bytes Merkle SpecMerkle.
From Coq Require Import Lia.
Open Scope string_scope.

Lemma append_length (a b : string) : String.length (a ++ b) = String.length a + String.length b.
Proof. induction a; cbn; auto. Qed.

Lemma append_inj_l (a b c d : string) : String.length a = String.length c -> a ++ b = c ++ d -> a = c /\ b = d.
Proof.
  revert c. induction a as [|x a IH]; intros [|y c] Hl H; cbn in *; try lia; [done|].
  injection H as -> H. destruct (IH c) as [-> ->]; auto; lia.
Qed.

Lemma append_inj_r (a b c d : string) : String.length b = String.length d -> a ++ b = c ++ d -> a = c /\ b = d.
Proof.
  intros Hl H. apply append_inj_l; [|done]. apply (f_equal String.length) in H. rewrite !append_length in H. lia.
Qed.

Section facts.
Context (h : string -> string).

Lemma list_pair_ind {A} (P : list A -> Prop) : P [] -> (forall a, P [a]) -> (forall a b r, P r -> P (a :: b :: r)) -> forall l, P l.
Proof.
  intros H0 H1 H2. assert (forall n l, length l <= n -> P l) as H; [|eauto].
  induction n as [|n IH]; intros [|a [|b r]] Hl; cbn in *; auto; try lia. apply H2, IH. lia.
Qed.

Lemma pairup_length l : length (pairup h l) = Nat.div2 (S (length l)).
Proof. induction l as [| |a b r IH] using list_pair_ind; cbn in *; auto. Qed.

Lemma pairup_lookup l : forall i x, l !! i = Some x ->
  pairup h l !! Nat.div2 i = Some (if Nat.even i then h (x ++ sibling l i) else h (sibling l i ++ x)).
Proof.
  induction l as [|a|a b r IH] using list_pair_ind; intros i x Hx.
  - done.
  - destruct i as [|i]; [|done]. injection Hx as ->. done.
  - destruct i as [|[|i]].
    + injection Hx as ->. done.
    + injection Hx as ->. done.
    + apply IH in Hx. change (pairup h r !! Nat.div2 i = Some (if Nat.even i then h (x ++ sibling (a :: b :: r) (S (S i))) else h (sibling (a :: b :: r) (S (S i)) ++ x))). rewrite Hx. f_equal.
      assert (sibling (a :: b :: r) (S (S i)) = sibling r i) as ->; [|done]. unfold sibling. cbn [Nat.even].
      destruct (Nat.even i) eqn:E; [done|]. destruct i; done.
Qed.

Lemma pairup_elem l y : y ∈ pairup h l -> exists a b, a ∈ l /\ b ∈ l /\ y = h (a ++ b).
Proof.
  induction l as [|a|a b r IH] using list_pair_ind; cbn; intros Hy.
  - by apply elem_of_nil in Hy.
  - apply elem_of_list_singleton in Hy as ->. exists a, a. split_and!; auto; by left.
  - apply elem_of_cons in Hy as [->|Hy].
    + exists a, b. split_and!; auto; [by left|by right; left].
    + destruct (IH Hy) as (c & d & Hc & Hd & ->). exists c, d. split_and!; auto; by right; right.
Qed.

Lemma half_le n d : n <= 2 ^ S d -> Nat.div2 (S n) <= 2 ^ d.
Proof. intros H. rewrite Nat.div2_div. cbn [Nat.pow] in H. assert (S n / 2 < S (2 ^ d)); [|lia]. apply Nat.div_lt_upper_bound; lia. Qed.

Lemma level_length d : forall l, length l <> 0 -> length l <= 2 ^ d -> length (level h d l) = 1.
Proof.
  induction d as [|d IH]; intros l H0 H1; cbn [level].
  - cbn in H1. lia.
  - apply IH; rewrite pairup_length; [|by apply half_le]. rewrite Nat.div2_div. intros H.
    apply Nat.div_small_iff in H; lia.
Qed.

Lemma odd_step (b : bool) p : N.odd (N.b2n b + 2 * p) = b.
Proof. rewrite N.add_comm. destruct b; [by rewrite N.add_1_r, N.odd_succ, N.even_mul|]. cbn [N.b2n]. rewrite N.add_0_r, N.odd_mul. done. Qed.

Lemma div2_step (b : bool) p : N.div2 (N.b2n b + 2 * p) = p.
Proof. rewrite N.div2_div, N.add_comm, N.mul_comm, N.div_add_l by done. rewrite N.div_small by (by destruct b). lia. Qed.

Lemma climb_proof d : forall l i x, length l <= 2 ^ d -> l !! i = Some x ->
  climb h x (pf_siblings (proof_at h d l i)) (pf_path (proof_at h d l i)) = default "" (head (level h d l)).
Proof.
  induction d as [|d IH]; intros l i x Hl Hx.
  - cbn in *. destruct l as [|y [|]]; cbn in Hl; try lia; [done|]. destruct i; [|done]. by injection Hx as ->.
  - cbn [proof_at pf_siblings pf_path climb level]. rewrite odd_step, div2_step.
    apply IH; [rewrite pairup_length; by apply half_le|]. by apply pairup_lookup.
Qed.

Lemma depth_ok n : n <= 2 ^ depth n.
Proof.
  unfold depth. destruct n as [|[|n]]; cbn -[Nat.log2_up Nat.pow]; [lia|done|]. apply Nat.log2_up_spec. lia.
Qed.

(** C33 *)
Lemma proofs_verify blocks t i b : new_tree h blocks = Some t -> blocks !! i = Some b ->
  exists p, mt_proofs t !! i = Some p /\ verify_proof h b (Some p) (mt_root t) = true.
Proof.
  unfold new_tree. destruct (Nat.leb _ _); [done|]. intros [= <-] Hb. pose proof (lookup_lt_Some _ _ _ Hb) as Hi. cbn [mt_proofs mt_root].
  exists (proof_at h (depth (length blocks)) (map h blocks) i). split.
  - rewrite list_lookup_fmap, lookup_seq_lt by done. done.
  - unfold verify_proof. rewrite climb_proof.
    + apply String.eqb_refl.
    + rewrite map_length. apply depth_ok.
    + rewrite list_lookup_fmap, Hb. done.
Qed.

Lemma proofs_length blocks t : new_tree h blocks = Some t -> length (mt_proofs t) = length blocks.
Proof. unfold new_tree. destruct (Nat.leb _ _); [done|]. intros [= <-]. cbn. by rewrite map_length, seq_length. Qed.

Lemma new_tree_some blocks : 2 <= length blocks <-> is_Some (new_tree h blocks).
Proof.
  unfold new_tree. destruct (Nat.leb_spec (length blocks) 1).
  - split; [lia|]. by intros [].
  - split; [eauto|lia].
Qed.

(** C34 *)
Lemma pairup_map l : pairup h l = map h (pair_inputs l).
Proof. induction l as [|a|a b r IH] using list_pair_ind; cbn; [done..|]. by rewrite IH. Qed.

Lemma pair_inputs_elem l y : y ∈ pair_inputs l -> exists a b, a ∈ l /\ b ∈ l /\ y = a ++ b.
Proof.
  induction l as [|a|a b r IH] using list_pair_ind; cbn; intros Hy.
  - by apply elem_of_nil in Hy.
  - apply elem_of_list_singleton in Hy as ->. exists a, a. split_and!; auto; by left.
  - apply elem_of_cons in Hy as [->|Hy].
    + exists a, b. split_and!; auto; [by left|by right; left].
    + destruct (IH Hy) as (c & d & Hc & Hd & ->). exists c, d. split_and!; auto; by right; right.
Qed.

Context (k : nat) (Hk : forall m, String.length (h m) = k).

Lemma pairup_len l x : x ∈ pairup h l -> String.length x = k.
Proof. intros (a & b & _ & _ & ->)%pairup_elem. apply Hk. Qed.

Lemma level_comm d l : pairup h (level h d l) = level h d (pairup h l).
Proof. revert l. induction d as [|d IH]; intros l; [done|]. cbn. apply IH. Qed.

Lemma level_len d l : (forall x, x ∈ l -> String.length x = k) -> forall x, x ∈ level h d l -> String.length x = k.
Proof. revert l. induction d as [|d IH]; intros l Hl; [done|]. cbn. apply IH. intros x. apply pairup_len. Qed.

Lemma hashes_len blocks x : x ∈ map h blocks -> String.length x = k.
Proof. intros (m & -> & _)%elem_of_list_fmap. apply Hk. Qed.

Lemma level_plus d e l : level h (d + e) l = level h e (level h d l).
Proof. revert l. induction d as [|d IH]; intros l; [done|]. cbn. apply IH. Qed.

Lemma level_inputs_plus d e l : level_inputs h (d + e) l = (level_inputs h d l ++ level_inputs h e (level h d l))%list.
Proof.
  revert l. induction d as [|d IH]; intros l; [done|]. cbn [level_inputs Nat.add level]. rewrite IH, pairup_map. by rewrite app_assoc.
Qed.

Lemma root_in_level blocks t : new_tree h blocks = Some t -> level h (depth (length blocks)) (map h blocks) = [mt_root t].
Proof.
  unfold new_tree. destruct (Nat.leb_spec (length blocks) 1); [done|]. intros [= <-]. cbn [mt_root].
  assert (length (level h (depth (length blocks)) (map h blocks)) = 1) as H1.
  { apply level_length; rewrite map_length; [lia|apply depth_ok]. }
  by destruct (level _ _ _) as [|x [|]].
Qed.

Section between.
Context (A B : list string).
Notation col := (collision_in h A B).

Lemma same_image a b : a ∈ A -> b ∈ B -> h a = h b -> a = b \/ col.
Proof. intros Ha Hb H. destruct (decide (a = b)); [by left|right]. by exists a, b. Qed.

(** A pair hash in the level above comes from a node of the level. *)
Lemma down_step l r s (b : bool) : (forall x, x ∈ l -> String.length x = k) -> String.length r = k ->
  (if b then r ++ s else s ++ r) ∈ A -> pair_inputs l ⊆ B ->
  h (if b then r ++ s else s ++ r) ∈ pairup h l -> r ∈ l \/ col.
Proof.
  intros Hl Hr HA HB. rewrite pairup_map. intros (y & E & Hy)%elem_of_list_fmap.
  apply same_image in E as [E|E]; [|by right|done|by apply HB].
  apply pair_inputs_elem in Hy as (c & d & Hc & Hd & ->). destruct b.
  - apply append_inj_l in E as [-> _]; [by left|]. by rewrite Hr, Hl.
  - apply append_inj_r in E as [_ ->]; [by left|]. by rewrite Hr, Hl.
Qed.

(** Climbing [length sibs] steps into the level reached after [e + length sibs]
    steps started in level [e]. *)
Lemma down sibs : forall l r path, (forall x, x ∈ l -> String.length x = k) -> String.length r = k ->
  climb_inputs h r sibs path ⊆ A -> level_inputs h (length sibs) l ⊆ B ->
  climb h r sibs path ∈ level h (length sibs) l -> r ∈ l \/ col.
Proof.
  induction sibs as [|s sibs IH]; intros l r path Hl Hr HA HB H; [by left|].
  cbn [climb length level climb_inputs level_inputs] in *.
  replace (if N.odd path then h (r ++ s) else h (s ++ r)) with (h (if N.odd path then r ++ s else s ++ r)) in H by (by destruct (N.odd path)).
  rewrite <- pairup_map in HB.
  apply IH in H as [H|H]; [|by right| | | |].
  - apply down_step in H; auto; [apply HA; by left|]. intros x Hx. apply HB. apply elem_of_app. by left.
  - intros x. apply pairup_len.
  - apply Hk.
  - intros x Hx. apply HA. by right.
  - intros x Hx. apply HB. apply elem_of_app. by right.
Qed.

Lemma leaf_in blocks x : x ∈ A -> blocks ⊆ B -> h x ∈ map h blocks -> x ∈ blocks \/ col.
Proof. intros HA HB (m & E & Hm)%elem_of_list_fmap. apply same_image in E as [->|E]; [by left|by right|done|by apply HB]. Qed.
End between.

Lemma tree_inputs_l blocks : blocks ⊆ tree_inputs h blocks.
Proof. intros x Hx. apply elem_of_app. by left. Qed.
Lemma tree_inputs_r blocks : level_inputs h (depth (length blocks)) (map h blocks) ⊆ tree_inputs h blocks.
Proof. intros x Hx. apply elem_of_app. by right. Qed.

(** Right depth: membership or a collision. *)
Lemma sound_depth blocks t x p : new_tree h blocks = Some t -> verify_proof h x (Some p) (mt_root t) = true ->
  length (pf_siblings p) = depth (length blocks) -> x ∈ blocks \/ collision_in h (proof_inputs h x p) (tree_inputs h blocks).
Proof.
  intros Ht Hv Hd. apply String.eqb_eq in Hv. pose proof (root_in_level _ _ Ht) as Hr.
  assert (climb h (h x) (pf_siblings p) (pf_path p) ∈ level h (length (pf_siblings p)) (map h blocks)) as H
    by (rewrite Hd, Hr, Hv; by left).
  apply (down (proof_inputs h x p) (tree_inputs h blocks)) in H as [H|H]; [|by right| | | |].
  - apply (leaf_in (proof_inputs h x p) (tree_inputs h blocks)) in H; [done|by left|apply tree_inputs_l].
  - apply hashes_len.
  - apply Hk.
  - intros y Hy. by right.
  - rewrite Hd. apply tree_inputs_r.
Qed.

(** Any depth: the exceptions are node-like data. *)
Lemma climb_app r s1 s2 path : climb h r (s1 ++ s2) path = climb h (climb h r s1 path) s2 (Nat.iter (length s1) N.div2 path).
Proof.
  revert r path. induction s1 as [|s s1 IH]; intros r path; [done|]. cbn [app climb length]. rewrite IH.
  rewrite <- Nat.iter_succ_r. done.
Qed.

Lemma climb_inputs_app r s1 s2 path : climb_inputs h r (s1 ++ s2) path =
  (climb_inputs h r s1 path ++ climb_inputs h (climb h r s1 path) s2 (Nat.iter (length s1) N.div2 path))%list.
Proof.
  revert r path. induction s1 as [|s s1 IH]; intros r path; [done|]. cbn [app climb climb_inputs length]. rewrite IH.
  rewrite <- Nat.iter_succ_r. by destruct (N.odd path).
Qed.

Lemma climb_last m s1 path : s1 <> [] -> exists u, climb h (h m) s1 path = h u /\ u ∈ climb_inputs h (h m) s1 path /\ node_like h u.
Proof.
  revert m path. induction s1 as [|s s1 IH]; intros m path Hn; [done|]. cbn [climb climb_inputs].
  destruct s1 as [|s' s1].
  - cbn [climb climb_inputs]. destruct (N.odd path); [exists (h m ++ s)|exists (s ++ h m)];
    (split; [done|]; split; [by left|]); exists m, s; auto.
  - destruct (IH (if N.odd path then h m ++ s else s ++ h m) (N.div2 path)) as (u & H1 & H2 & H3); [done|].
    exists u. split; [by destruct (N.odd path)|]. split; [by right|done].
Qed.

Lemma level_hashes d l : (forall x, x ∈ l -> exists m, x = h m) -> forall x, x ∈ level h d l -> exists m, x = h m.
Proof. revert l. induction d as [|d IH]; intros l Hl; [done|]. cbn. apply IH. intros x (a & b & _ & _ & ->)%pairup_elem. eauto. Qed.

Lemma sound_any blocks t x p : new_tree h blocks = Some t -> verify_proof h x (Some p) (mt_root t) = true ->
  x ∈ blocks \/ collision_in h (proof_inputs h x p) (tree_inputs h blocks) \/
  (exists a b, x = h a ++ h b) \/ exists y, y ∈ blocks /\ node_like h y.
Proof.
  intros Ht Hv. destruct (decide (length (pf_siblings p) = depth (length blocks))) as [Heq|Hne].
  { destruct (sound_depth _ _ _ _ Ht Hv Heq); auto. }
  apply String.eqb_eq in Hv. pose proof (root_in_level _ _ Ht) as Hr.
  set (Q := proof_inputs h x p). set (B := tree_inputs h blocks).
  assert (climb h (h x) (pf_siblings p) (pf_path p) ∈ level h (depth (length blocks)) (map h blocks)) as H
    by (rewrite Hr, Hv; by left). clear Hr Hv.
  assert (climb_inputs h (h x) (pf_siblings p) (pf_path p) ⊆ Q) as HQ by (intros y Hy; by right).
  assert (level_inputs h (depth (length blocks)) (map h blocks) ⊆ B) as HB by apply tree_inputs_r.
  set (d := depth (length blocks)) in *. set (n := length (pf_siblings p)) in *. right.
  destruct (lt_dec n d) as [Hlt|Hgt].
  - replace d with ((d - S n) + S n) in H, HB by lia. rewrite level_plus in H. rewrite level_inputs_plus in HB. cbn [level level_inputs] in H, HB.
    rewrite <- pairup_map in HB.
    assert (forall z, z ∈ map h blocks -> exists m, z = h m) as Hz by (intros z (m & -> & _)%elem_of_list_fmap; eauto).
    revert H HB. pose proof (level_hashes (d - S n) _ Hz) as Hh. pose proof (level_len (d - S n) _ (hashes_len blocks)) as Hn.
    generalize dependent (level h (d - S n) (map h blocks)). intros l Hh Hn H HB.
    apply (down Q B) in H as [H|H]; [|by left| | | |].
    + rewrite pairup_map in H. apply elem_of_list_fmap in H as (y & E & Hy).
      apply (same_image Q B) in E as [->|E]; [|by left|by left|].
      * right. left. apply pair_inputs_elem in Hy as (a & b & Ha & Hb & ->).
        destruct (Hh _ Ha) as [a' ->], (Hh _ Hb) as [b' ->]. eauto.
      * apply HB. apply elem_of_app. right. apply elem_of_app. by left.
    + intros y. apply pairup_len.
    + apply Hk.
    + done.
    + intros y Hy. apply HB. apply elem_of_app. right. apply elem_of_app. by right.
  - rewrite <- (take_drop (n - d) (pf_siblings p)) in H, HQ. rewrite climb_app in H. rewrite climb_inputs_app in HQ.
    assert (length (drop (n - d) (pf_siblings p)) = d) as Hd by (rewrite drop_length; fold n; lia).
    destruct (climb_last x (take (n - d) (pf_siblings p)) (pf_path p)) as (u & Hu & Hin & Hl).
    { intros E. apply (f_equal length) in E. rewrite take_length in E. fold n in E. cbn in E. lia. }
    set (r1 := climb h (h x) (take (n - d) (pf_siblings p)) (pf_path p)) in *.
    set (pth := Nat.iter _ _ _) in *. clearbody pth.
    revert Hd H HQ HB. generalize (drop (n - d) (pf_siblings p)). intros s2 Hd H HQ HB. rewrite <- Hd in H, HB.
    apply (down Q B) in H as [H|H]; [|by left| | | |].
    + rewrite Hu in H. apply (leaf_in Q B) in H as [H|H]; [|by left| |].
      * right. right. eauto.
      * apply HQ. apply elem_of_app. by left.
      * apply tree_inputs_l.
    + apply hashes_len.
    + rewrite Hu. apply Hk.
    + intros y Hy. apply HQ. apply elem_of_app. by right.
    + done.
Qed.

(** The root determines the blocks, once their number is known. *)
Lemma pair_inputs_inj l1 l2 : length l1 = length l2 -> (forall x, x ∈ l1 -> String.length x = k) -> (forall x, x ∈ l2 -> String.length x = k) ->
  pair_inputs l1 = pair_inputs l2 -> l1 = l2.
Proof.
  revert l2. induction l1 as [|a|a b l1 IH] using list_pair_ind; intros [|c [|d l2]] Hl H1 H2 E; try done.
  - cbn in E. injection E as E. apply append_inj_l in E as [-> _]; [done|].
    rewrite H1, H2; [done|by left|by left].
  - cbn in E. injection E as E1 E2.
    apply append_inj_l in E1 as [-> ->]; [|rewrite H1, H2; [done|by left|by left]].
    rewrite (IH l2); [done|cbn in Hl; lia| |  |done].
    + intros x Hx. apply H1. by do 2 right.
    + intros x Hx. apply H2. by do 2 right.
Qed.

Lemma pair_inputs_length l1 l2 : length l1 = length l2 -> length (pair_inputs l1) = length (pair_inputs l2).
Proof.
  revert l2. induction l1 as [|a|a b l1 IH] using list_pair_ind; intros [|c [|d l2]] Hl; try done.
  cbn. f_equal. apply IH. cbn in Hl. lia.
Qed.

Lemma map_hash_inj A B l1 : forall l2, l1 ⊆ A -> l2 ⊆ B -> map h l1 = map h l2 -> l1 = l2 \/ collision_in h A B.
Proof.
  induction l1 as [|a l1 IH]; intros [|b l2] HA HB E; try done; [by left|]. cbn in E. injection E as E1 E2.
  apply (same_image A B) in E1 as [->|E1]; [|by right|apply HA; by left|apply HB; by left].
  apply IH in E2 as [->|E2]; [by left|by right|..]; intros x Hx; [apply HA|apply HB]; by right.
Qed.

Lemma level_inj A B d : forall l1 l2, length l1 = length l2 -> (forall x, x ∈ l1 -> String.length x = k) -> (forall x, x ∈ l2 -> String.length x = k) ->
  level_inputs h d l1 ⊆ A -> level_inputs h d l2 ⊆ B ->
  level h d l1 = level h d l2 -> l1 = l2 \/ collision_in h A B.
Proof.
  induction d as [|d IH]; intros l1 l2 Hl H1 H2 HA HB E; [by left|]. cbn [level level_inputs] in *. rewrite !pairup_map in E.
  apply IH in E as [E|E]; [|by right|by rewrite !map_length; apply pair_inputs_length|apply hashes_len|apply hashes_len| |].
  - apply (map_hash_inj A B) in E as [E|E]; [|by right| |].
    + left. by apply pair_inputs_inj.
    + intros x Hx. apply HA, elem_of_app. by left.
    + intros x Hx. apply HB, elem_of_app. by left.
  - intros x Hx. apply HA, elem_of_app. by right.
  - intros x Hx. apply HB, elem_of_app. by right.
Qed.

Lemma root_commits l1 l2 t1 t2 : new_tree h l1 = Some t1 -> new_tree h l2 = Some t2 -> length l1 = length l2 ->
  mt_root t1 = mt_root t2 -> l1 = l2 \/ collision_in h (tree_inputs h l1) (tree_inputs h l2).
Proof.
  intros T1 T2 Hl E. pose proof (root_in_level _ _ T1) as S1. pose proof (root_in_level _ _ T2) as S2.
  rewrite E, <- S2, <- Hl in S1.
  apply (level_inj (tree_inputs h l1) (tree_inputs h l2)) in S1 as [S1|S1]; [|by right|by rewrite !map_length|apply hashes_len|apply hashes_len| |].
  - apply (map_hash_inj (tree_inputs h l1) (tree_inputs h l2)) in S1; [done|apply tree_inputs_l|apply tree_inputs_l].
  - apply tree_inputs_r.
  - rewrite Hl. apply tree_inputs_r.
Qed.

Lemma sound_depth_some blocks t x q : new_tree h blocks = Some t -> verify_proof h x q (mt_root t) = true ->
  exists p, q = Some p /\ (length (pf_siblings p) = depth (length blocks) -> x ∈ blocks \/ collision_in h (proof_inputs h x p) (tree_inputs h blocks)).
Proof. destruct q as [p|]; [|done]. intros Ht Hv. exists p. split; [done|]. by eapply sound_depth. Qed.
Lemma sound_any_some blocks t x q : new_tree h blocks = Some t -> verify_proof h x q (mt_root t) = true ->
  exists p, q = Some p /\ (x ∈ blocks \/ collision_in h (proof_inputs h x p) (tree_inputs h blocks) \/
  (exists a b, x = h a ++ h b) \/ exists y, y ∈ blocks /\ node_like h y).
Proof. destruct q as [p|]; [|done]. intros Ht Hv. exists p. split; [done|]. by eapply sound_any. Qed.
End facts.

(** Without the depth check an inner node is accepted as a leaf, whatever the
    hash function. *)
Lemma inner_node_accepted h a b c d : exists t p,
  new_tree h [a; b; c; d] = Some t /\ verify_proof h (h a ++ h b) (Some p) (mt_root t) = true.
Proof.
  eexists _, (mkproof [h (h c ++ h d)] 1). split; [reflexivity|]. unfold verify_proof. cbn. apply String.eqb_refl.
Qed.

(** Repeating the last block of an odd list leaves the root unchanged. *)
Lemma root_padding h a b c : exists t1 t2, new_tree h [a; b; c] = Some t1 /\ new_tree h [a; b; c; c] = Some t2 /\ mt_root t1 = mt_root t2.
Proof. eexists _, _. split; [reflexivity|]. split; [reflexivity|]. reflexivity. Qed.
