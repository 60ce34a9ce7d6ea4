(** Proofs about certificate pools. *)
From Verif Require Import Bytes Json Types Merkle Cert CertPool CTngExt SpecCert.
From Coq Require Import Lia.
Open Scope string_scope.

Lemma is_empty_eq s : is_empty s = true <-> s = "".
Proof. by destruct s. Qed.

Lemma positions_nil f : positions f [] = [].
Proof. done. Qed.

Lemma positions_snoc f l c : positions f (l ++ [c]) = (positions f l ++ (if f c then [length l] else []))%list.
Proof.
  unfold positions. rewrite app_length. cbn [length]. rewrite Nat.add_1_r, seq_S, List.filter_app. cbn [Nat.add].
  f_equal.
  - apply List.filter_ext_in. intros i Hi. apply in_seq in Hi. rewrite lookup_app_l by lia. done.
  - cbn [List.filter]. rewrite lookup_app_r, Nat.sub_diag by lia. done.
Qed.

Lemma positions_in f l i : i ∈ positions f l <-> exists c, l !! i = Some c /\ f c = true.
Proof.
  unfold positions. rewrite elem_of_list_In, List.filter_In, in_seq. split.
  - intros [_ H]. destruct (l !! i) as [c|]; [eauto|done].
  - intros (c & Hc & Hf). rewrite Hc. apply lookup_lt_Some in Hc. split; [lia|done].
Qed.

Lemma positions_head f l : match positions f l with [] => find f l = None | i :: _ => l !! i = find f l /\ is_Some (find f l) end.
Proof.
  induction l as [|c l IH] using rev_ind; [done|]. rewrite positions_snoc.
  assert (find f (l ++ [c])%list = match find f l with Some d => Some d | None => if f c then Some c else None end) as ->.
  { clear. induction l as [|d l IH]; cbn; [done|]. destruct (f d); [done|apply IH]. }
  destruct (positions f l) as [|i r] eqn:E.
  - rewrite IH. cbn. destruct (f c); cbn; [|done]. rewrite lookup_app_r, Nat.sub_diag by lia. cbn. eauto.
  - destruct IH as [H1 [d H2]]. cbn. rewrite H2 in *. rewrite lookup_app_l by (by eapply lookup_lt_Some). eauto.
Qed.

Definition by_ski (k : string) (c : cert) : bool := negb (is_empty k) && String.eqb (c_ski c) k.
Definition by_subject (k : string) (c : cert) : bool := String.eqb (c_subject c) k.

Definition indexed (s : pool) : Prop :=
  (forall k, indexes (p_by_ski s) k = positions (by_ski k) (p_certs s)) /\
  (forall k, indexes (p_by_name s) k = positions (by_subject k) (p_certs s)).

Lemma indexed_new : indexed new_pool.
Proof. split; intros k; unfold indexes; cbn; by rewrite lookup_empty. Qed.

Lemma indexes_add m k n j : indexes (index_add m k n) j = (indexes m j ++ if String.eqb k j then [n] else [])%list.
Proof.
  unfold index_add, indexes. destruct (String.eqb_spec k j) as [->|Hn].
  - by rewrite lookup_insert.
  - rewrite lookup_insert_ne by done. by rewrite app_nil_r.
Qed.

Lemma contains_spec s c : indexed s -> contains s c = existsb (same_cert c) (p_certs s).
Proof.
  intros [_ H]. unfold contains. rewrite H. apply eq_true_iff_eq. rewrite !existsb_exists. split.
  - intros (i & Hi & He). apply elem_of_list_In, positions_in in Hi as (d & Hd & Hs). rewrite Hd in He.
    exists d. split; [apply elem_of_list_In; by eapply elem_of_list_lookup_2|].
    unfold same_cert, by_subject, cert_equal in *. apply String.eqb_eq in Hs, He. by rewrite Hs, He, !String.eqb_refl.
  - intros (d & Hd & Hs). apply elem_of_list_In, elem_of_list_lookup in Hd as [i Hd].
    apply andb_true_iff in Hs as [H1 H2]. apply String.eqb_eq in H1, H2.
    exists i. split.
    + apply elem_of_list_In, positions_in. exists d. split; [done|]. unfold by_subject. by rewrite H1, String.eqb_refl.
    + rewrite Hd. unfold cert_equal. by rewrite H2, String.eqb_refl.
Qed.

Lemma indexed_add s c : indexed s -> indexed (add_cert s c).
Proof.
  intros [H1 H2]. unfold add_cert. destruct (contains s c); [done|]. split; intros k; cbn [p_by_ski p_by_name p_certs].
  - rewrite positions_snoc. destruct (is_empty (c_ski c)) eqn:E.
    + apply is_empty_eq in E. rewrite H1. assert (by_ski k c = false) as ->; [|by rewrite app_nil_r]. unfold by_ski. rewrite E. by destruct k.
    + rewrite indexes_add, H1. f_equal. assert (by_ski k c = String.eqb (c_ski c) k) as ->; [|done]. unfold by_ski. destruct (String.eqb_spec (c_ski c) k) as [<-|]; [by rewrite E|].
      by rewrite andb_false_r.
  - by rewrite indexes_add, H2, positions_snoc.
Qed.

Lemma add_cert_certs s c : indexed s ->
  p_certs (add_cert s c) = if existsb (same_cert c) (p_certs s) then p_certs s else (p_certs s ++ [c])%list.
Proof. intros H. unfold add_cert. rewrite contains_spec by done. by destruct (existsb _ _). Qed.

Lemma add_all_spec l : indexed (add_all l) /\ p_certs (add_all l) = first_copies l.
Proof.
  induction l as [|c l [IH1 IH2]] using rev_ind; [split; [apply indexed_new|done]|].
  unfold add_all, first_copies. rewrite !fold_left_app. cbn [fold_left]. split; [by apply indexed_add|].
  rewrite add_cert_certs by done. fold (add_all l) (first_copies l). by rewrite IH2.
Qed.

(** The list [first_copies] in other words. *)
Lemma same_cert_sym a b : same_cert a b = same_cert b a.
Proof. unfold same_cert. by rewrite (String.eqb_sym (c_subject a)), (String.eqb_sym (c_raw a)). Qed.

Lemma first_copies_facts l :
  (forall c, c ∈ first_copies l -> c ∈ l) /\
  (forall c, c ∈ l -> exists d, d ∈ first_copies l /\ c_subject d = c_subject c /\ c_raw d = c_raw c) /\
  NoDup (map (λ c, (c_subject c, c_raw c)) (first_copies l)).
Proof.
  induction l as [|c l (IH1 & IH2 & IH3)] using rev_ind.
  - split_and!; [done|by intros c ?%elem_of_nil|constructor].
  - unfold first_copies in *. rewrite fold_left_app. cbn [fold_left]. set (acc := fold_left _ l []) in *.
    destruct (existsb (same_cert c) acc) eqn:E.
    + apply existsb_exists in E as (d & Hd & Hs). apply andb_true_iff in Hs as [H1 H2]. apply String.eqb_eq in H1, H2.
      split_and!; auto.
      * intros e He. apply elem_of_app. left. auto.
      * intros e [He|He]%elem_of_app; [auto|]. apply elem_of_list_singleton in He as ->. exists d.
        rewrite elem_of_list_In. auto.
    + split_and!.
      * intros e [He|He]%elem_of_app; apply elem_of_app; [left; auto|by right].
      * intros e [He|He]%elem_of_app.
        -- destruct (IH2 e He) as (d & Hd & ?). exists d. split; [apply elem_of_app; by left|done].
        -- apply elem_of_list_singleton in He as ->. exists c. split; [apply elem_of_app; right; by left|done].
      * rewrite map_app. apply NoDup_app. split_and!; [done| |cbn; apply NoDup_singleton].
        intros x Hx Hc. cbn in Hc. apply elem_of_list_singleton in Hc as ->.
        apply elem_of_list_fmap in Hx as (d & [= Hd1 Hd2] & Hd).
        assert (existsb (same_cert c) acc = true) as Et; [|congruence]. apply existsb_exists. exists d.
        rewrite <- elem_of_list_In. split; [done|]. unfold same_cert. by rewrite Hd1, Hd2, !String.eqb_refl.
Qed.

Lemma get_by_ski_spec s k : indexed s ->
  get_by_ski s k = if is_empty k then None else find (λ c, String.eqb (c_ski c) k) (p_certs s).
Proof.
  intros [H _]. unfold get_by_ski. rewrite H. pose proof (positions_head (by_ski k) (p_certs s)) as Hp.
  assert (forall l, find (by_ski k) l = if is_empty k then None else find (λ c, String.eqb (c_ski c) k) l) as E.
  { clear. intros l. destruct (is_empty k) eqn:E.
    - induction l as [|c l IH]; cbn; [done|]. unfold by_ski at 1. by rewrite E.
    - induction l as [|c l IH]; cbn; [done|]. unfold by_ski at 1. rewrite E. cbn. by destruct (String.eqb (c_ski c) k). }
  rewrite <- E.
  destruct (positions _ _); [done|]. by destruct Hp.
Qed.

Lemma parents_spec s c : indexed s ->
  potential_parents s c =
  if negb (is_empty (c_aki c)) && existsb (λ d, String.eqb (c_ski d) (c_aki c)) (p_certs s)
  then positions (λ d, String.eqb (c_ski d) (c_aki c)) (p_certs s)
  else positions (λ d, String.eqb (c_subject d) (c_issuer c)) (p_certs s).
Proof.
  intros [H1 H2]. unfold potential_parents. rewrite H1, H2. destruct (is_empty (c_aki c)) eqn:E; [done|]. cbn [negb andb].
  assert (positions (by_ski (c_aki c)) (p_certs s) = positions (λ d, String.eqb (c_ski d) (c_aki c)) (p_certs s)) as ->.
  { unfold positions, by_ski. rewrite E. done. }
  destruct (existsb _ _) eqn:Ex.
  - apply existsb_exists in Ex as (d & Hd & Hs). apply elem_of_list_In, elem_of_list_lookup in Hd as [i Hi].
    assert (i ∈ positions (λ d, String.eqb (c_ski d) (c_aki c)) (p_certs s)) as Hp by (apply positions_in; eauto).
    destruct (positions _ _); [by apply elem_of_nil in Hp|done].
  - destruct (positions (λ d, String.eqb (c_ski d) (c_aki c)) (p_certs s)) as [|i r] eqn:Ep; [done|].
    assert (i ∈ i :: r) as Hi by (by left). rewrite <- Ep in Hi. apply positions_in in Hi as (d & Hd & Hs).
    assert (existsb (λ d, String.eqb (c_ski d) (c_aki c)) (p_certs s) = true) as Et; [|congruence].
    apply existsb_exists. exists d. rewrite <- elem_of_list_In. split; [by eapply elem_of_list_lookup_2|done].
Qed.

(** Replacing a certificate by one with the same names keeps the indexes. *)
Lemma positions_insert f l i c d : l !! i = Some d -> f c = f d -> positions f (<[i := c]> l) = positions f l.
Proof.
  intros Hd Hf. unfold positions. rewrite insert_length. apply List.filter_ext_in. intros j _.
  destruct (decide (i = j)) as [->|Hn]; [|by rewrite list_lookup_insert_ne].
  rewrite list_lookup_insert by (by eapply lookup_lt_Some). by rewrite Hd.
Qed.

Lemma indexed_update s k c : indexed s -> keeps_names s (PUpdate k c) -> indexed (update_by_ski s k c).
Proof.
  intros HI Hk. cbn in Hk. pose proof HI as [H1 H2]. unfold update_by_ski. unfold get_by_ski in Hk.
  destruct (indexes (p_by_ski s) k) as [|i r] eqn:E; [done|].
  destruct (p_certs s !! i) as [d|] eqn:Ed.
  - destruct (Hk d eq_refl) as [Hs Hi]. split; intros j; cbn [p_by_ski p_by_name p_certs].
    + rewrite H1. symmetry. eapply positions_insert; [done|]. unfold by_ski. by rewrite Hi.
    + rewrite H2. symmetry. eapply positions_insert; [done|]. unfold by_subject. by rewrite Hs.
  - rewrite list_insert_ge by (by apply lookup_ge_None). by split.
Qed.

Lemma pool_run_indexed s l s' : pool_run s l s' -> indexed s -> indexed s'.
Proof.
  induction 1 as [|s o l s' Hk Hr IH]; [done|]. intros HI. apply IH. destruct o; [by apply indexed_add|by apply indexed_update].
Qed.

(** The same about the public operations. *)
Lemma pool_contents l :
  get_certs (add_all l) = first_copies l /\ get_length (add_all l) = length (first_copies l) /\
  subjects (add_all l) = map c_subject (first_copies l) /\
  (forall c, c ∈ first_copies l -> c ∈ l) /\
  (forall c, c ∈ l -> exists d, d ∈ first_copies l /\ c_subject d = c_subject c /\ c_raw d = c_raw c) /\
  NoDup (map (λ c, (c_subject c, c_raw c)) (first_copies l)).
Proof. unfold get_length, subjects, get_certs. destruct (add_all_spec l) as [_ ->]. split_and!; [done..| | |]; apply first_copies_facts. Qed.

Lemma pool_lookup l k :
  get_by_ski (add_all l) k = if is_empty k then None else find (λ c, String.eqb (c_ski c) k) (first_copies l).
Proof. destruct (add_all_spec l) as [H <-]. by apply get_by_ski_spec. Qed.

Lemma pool_parents l c :
  potential_parents (add_all l) c =
  if negb (is_empty (c_aki c)) && existsb (λ d, String.eqb (c_ski d) (c_aki c)) (first_copies l)
  then positions (λ d, String.eqb (c_ski d) (c_aki c)) (first_copies l)
  else positions (λ d, String.eqb (c_subject d) (c_issuer c)) (first_copies l).
Proof. destruct (add_all_spec l) as [H <-]. by apply parents_spec. Qed.

Lemma pool_run_lookup l s k : pool_run new_pool l s ->
  get_by_ski s k = if is_empty k then None else find (λ c, String.eqb (c_ski c) k) (p_certs s).
Proof. intros H. apply get_by_ski_spec. eapply pool_run_indexed; [done|apply indexed_new]. Qed.
