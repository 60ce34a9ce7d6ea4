(** Facts about mass revocations. *)
From Verif Require Import Bytes Bitset BitsetFacts CTngExt Revocation Sample SpecCA CAFacts.
From Coq Require Import Lia.

Lemma random_positions_some want : forall draws found l, NoDup found -> length found <= want ->
  random_positions want found draws = Some l ->
  NoDup l /\ length l = want /\ forall i, i ∈ l -> i ∈ found \/ i ∈ draws.
Proof.
  induction draws as [|d r IH]; intros found l ND Hf; cbn [random_positions]; destruct (Nat.leb_spec want (length found)).
  - intros [= <-]. split; [done|]. split; [lia|]. by left.
  - discriminate.
  - intros [= <-]. split; [done|]. split; [lia|]. by left.
  - destruct (bool_decide_reflect (d ∈ found)) as [Hd|Hd].
    + intros E. destruct (IH found l ND Hf E) as (H1 & H2 & H3). split; [done|]. split; [done|].
      intros i Hi. destruct (H3 i Hi); [by left|right; by right].
    + intros E. destruct (IH (found ++ [d])%list l) as (H1 & H2 & H3); [|rewrite app_length; cbn; lia|done|].
      { apply NoDup_app. split; [done|]. split; [|apply NoDup_singleton]. intros x Hx ->%elem_of_list_singleton. done. }
      split; [done|]. split; [done|]. intros i Hi. destruct (H3 i Hi) as [Hi'|Hi']; [|right; by right].
      apply elem_of_app in Hi' as [?| ->%elem_of_list_singleton]; [by left|right; by left].
Qed.

(** Different numbers below [total] are at most [total] many. *)
Lemma few_below (l : list N) (total : N) : NoDup l -> (forall i, i ∈ l -> (i < total)%N) -> length l <= N.to_nat total.
Proof.
  intros ND H. assert (Hs : l ⊆+ (N.of_nat <$> seq 0 (N.to_nat total))).
  { apply NoDup_submseteq; [done|]. intros i Hi. apply elem_of_list_fmap. exists (N.to_nat i).
    split; [by rewrite N2Nat.id|]. apply elem_of_seq. specialize (H i Hi). lia. }
  apply submseteq_length in Hs. by rewrite fmap_length, seq_length in Hs.
Qed.

Lemma random_positions_never want (total : N) draws : (forall i, i ∈ draws -> (i < total)%N) -> N.to_nat total < want ->
  random_positions want [] draws = None.
Proof.
  intros H Hw. destruct (random_positions want [] draws) as [l|] eqn:E; [|done]. exfalso.
  destruct (random_positions_some want draws [] l) as (H1 & H2 & H3); [apply NoDup_nil_2|cbn; lia|done|].
  assert (Hl := few_below l total H1 ltac:(intros i Hi; destruct (H3 i Hi) as [Hn|]; [by apply elem_of_nil in Hn|auto])). lia.
Qed.

Lemma random_positions_ends want : forall draws found (k : list N), NoDup k -> want <= length k ->
  (forall i, i ∈ k -> i ∈ found \/ i ∈ draws) -> is_Some (random_positions want found draws).
Proof.
  induction draws as [|d r IH]; intros found k ND Hk Hi; cbn [random_positions]; destruct (Nat.leb_spec want (length found)); [by eexists| |by eexists|].
  - exfalso. assert (Hs : k ⊆+ found).
    { apply NoDup_submseteq; [done|]. intros i Hx. destruct (Hi i Hx) as [|Hn]; [done|by apply elem_of_nil in Hn]. }
    apply submseteq_length in Hs. lia.
  - apply (IH _ k ND Hk). intros i Hx. destruct (Hi i Hx) as [Hf|Hf].
    + left. destruct (bool_decide _); [done|]. apply elem_of_app. by left.
    + apply elem_of_cons in Hf as [->|]; [|by right]. left.
      destruct (bool_decide_reflect (d ∈ found)); [done|]. apply elem_of_app. right. by left.
Qed.

Lemma sets_spec l : forall b, bs_trim b ->
  bs_trim (fold_left bs_set l b) /\ forall i, revokes (fold_left bs_set l b) i <-> revokes b i \/ i ∈ l.
Proof.
  induction l as [|j l IH]; intros b Hb; cbn [fold_left].
  - split; [done|]. intros i. split; [by left|]. intros [|Hn]; [done|by apply elem_of_nil in Hn].
  - destruct (IH (bs_set b j) (bs_trim_set b j Hb)) as [H1 H2]. split; [done|]. intros i. rewrite H2.
    rewrite !revokes_test, bs_test_set by done. rewrite orb_true_iff, N.eqb_eq, elem_of_cons.
    split; [intros [[->|]|]; auto|intros [|[->|]]; auto].
Qed.

Lemma sets_len l : forall b, (forall i, i ∈ l -> (i < bs_len b)%N) -> bs_len (fold_left bs_set l b) = bs_len b.
Proof.
  induction l as [|j l IH]; intros b H; [done|]. cbn [fold_left].
  assert (E : bs_len (bs_set b j) = bs_len b) by (cbn; specialize (H j ltac:(left)); lia).
  rewrite IH; [done|]. intros i Hi. rewrite E. apply H. by right.
Qed.

Lemma mass_revoke_exact want (total : N) draws v v' :
  (forall i, N.testbit (bs_bits (v_cur v)) i = true -> (i < bs_len (v_cur v))%N) -> (total <= bs_len (v_cur v))%N ->
  (forall i, i ∈ draws -> (i < total)%N) -> mass_revoke want draws v = Some v' ->
  exists l, NoDup l /\ length l = want /\ (forall i, i ∈ l -> (i < total)%N) /\
    (forall i, revokes (v_cur v') i <-> revokes (v_cur v) i \/ i ∈ l) /\
    bs_len (v_cur v') = bs_len (v_cur v) /\ v_pre v' = v_pre v.
Proof.
  intros Hb Ht Hd. unfold mass_revoke. destruct (random_positions want [] draws) as [l|] eqn:E; [|discriminate]. intros [= <-].
  destruct (random_positions_some want draws [] l) as (H1 & H2 & H3); [apply NoDup_nil_2|cbn; lia|done|].
  assert (Hl : forall i, i ∈ l -> (i < total)%N).
  { intros i Hi. destruct (H3 i Hi) as [Hn|]; [by apply elem_of_nil in Hn|auto]. }
  destruct (mass_cur l v) as [-> ->].
  exists l. split; [done|]. split; [done|]. split; [done|]. split; [apply sets_spec; exact Hb|]. split; [|done].
  apply sets_len. intros i Hi. specialize (Hl i Hi). lia.
Qed.

Lemma mass_never want (total : N) draws v : (forall i, i ∈ draws -> (i < total)%N) -> N.to_nat total < want ->
  mass_revoke want draws v = None.
Proof. intros H Hw. unfold mass_revoke. by rewrite (random_positions_never want total draws H Hw). Qed.

Lemma mass_ends want draws v (k : list N) : NoDup k -> want <= length k -> (forall i, i ∈ k -> i ∈ draws) ->
  is_Some (mass_revoke want draws v).
Proof.
  intros H1 H2 H3. unfold mass_revoke. destruct (random_positions_ends want draws [] k H1 H2) as [l ->]; [|by eexists].
  intros i Hi. right. auto.
Qed.
