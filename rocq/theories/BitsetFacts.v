(** Facts about Bitset.v. *)
From Verif Require Import Bytes CTngExt Bitset CodecFacts ExtFacts.
Open Scope string_scope.

Lemma be_fixed_app k : forall n acc, be_fixed k n acc = be_fixed k n "" ++ acc.
Proof.
  induction k as [|k IH]; intros n acc; [reflexivity|]. cbn [be_fixed].
  rewrite (IH _ (String _ acc)), (IH _ (String _ "")). rewrite app_assoc_s. reflexivity.
Qed.

Lemma be_fixed_len k : forall n, len (be_fixed k n "") = k.
Proof.
  induction k as [|k IH]; intros n; [reflexivity|]. cbn [be_fixed]. rewrite be_fixed_app, len_app, IH. cbn. lia.
Qed.

Lemma be_value_app a b : forall x, be_value (a ++ b) x = be_value b (be_value a x).
Proof. induction a as [|c a IH]; intros x; cbn; [reflexivity|apply IH]. Qed.

Lemma be_fixed_value k : forall n, (n < 256 ^ N.of_nat k)%N -> be_value (be_fixed k n "") 0 = n.
Proof.
  induction k as [|k IH]; intros n Hn.
  - cbn in *. lia.
  - cbn [be_fixed]. rewrite be_fixed_app, be_value_app, IH.
    + cbn [be_value]. rewrite N_ascii_embedding by (apply N.mod_lt; lia).
      rewrite (N.div_mod n 256) at 3 by lia. lia.
    + apply N.div_lt_upper_bound; [lia|]. rewrite Nat2N.inj_succ, N.pow_succ_r' in Hn. exact Hn.
Qed.

Lemma split_at_prefix k a b : len a = k -> split_at k (a ++ b) = Some (a, b).
Proof. intros <-. apply split_at_app. Qed.

Lemma word_size_pow : word_size = (2 ^ 64)%N.
Proof. reflexivity. Qed.

Lemma put_words_len k : forall n, len (put_words k n) = 8 * k.
Proof. induction k as [|k IH]; intros n; [reflexivity|]. cbn [put_words]. rewrite len_app, be_fixed_len, IH. lia. Qed.

Lemma get_put_words k : forall n, (n < word_size ^ N.of_nat k)%N -> get_words k (put_words k n) = Some n.
Proof.
  induction k as [|k IH]; intros n Hn.
  - cbn in *. f_equal. lia.
  - cbn [put_words get_words]. rewrite (split_at_prefix 8) by apply be_fixed_len.
    rewrite IH.
    + rewrite be_fixed_value; [|apply N.mod_lt; discriminate]. f_equal.
      rewrite (N.div_mod n word_size) at 3 by discriminate. lia.
    + apply N.div_lt_upper_bound; [discriminate|]. rewrite Nat2N.inj_succ, N.pow_succ_r' in Hn. exact Hn.
Qed.

(** No bits beyond the words, and a length below 2^64. *)
Definition bs_ok (b : bitset) : Prop := (bs_len b < word_size)%N /\ (bs_bits b < word_size ^ words_needed (bs_len b))%N.

(** No bits beyond the length. *)
Definition bs_trim (b : bitset) : Prop := forall i, N.testbit (bs_bits b) i = true -> (i < bs_len b)%N.

Lemma bs_roundtrip b : bs_ok b -> bs_unmarshal (bs_marshal b) = Some b.
Proof.
  intros [Hl Hb]. unfold bs_unmarshal, bs_marshal. rewrite (split_at_prefix 8) by apply be_fixed_len.
  rewrite be_fixed_value by exact Hl. rewrite put_words_len.
  replace (N.of_nat (8 * N.to_nat (words_needed (bs_len b))) <? 8 * words_needed (bs_len b))%N with false
    by (symmetry; apply N.ltb_ge; lia).
  rewrite get_put_words; [|rewrite N2Nat.id; exact Hb]. destruct b; reflexivity.
Qed.

Lemma bs_marshal_inj a b : bs_ok a -> bs_ok b -> bs_marshal a = bs_marshal b -> a = b.
Proof. intros Ha Hb E. apply bs_roundtrip in Ha, Hb. congruence. Qed.

Lemma bits_bound n v : (forall i, N.testbit v i = true -> (i < n)%N) -> (v < 2 ^ n)%N.
Proof.
  intros H. destruct (N.eq_dec v 0) as [->|Hz].
  - pose proof (N.pow_nonzero 2 n). lia.
  - apply N.log2_lt_pow2; [lia|]. apply H. apply N.bit_log2. exact Hz.
Qed.

Lemma words_enough n : (n <= 64 * words_needed n)%N.
Proof. unfold words_needed. pose proof (N.div_mod (n + 63) 64). pose proof (N.mod_lt (n + 63) 64). lia. Qed.

Lemma bs_trim_ok b : (bs_len b < word_size)%N -> bs_trim b -> bs_ok b.
Proof.
  intros Hl Ht. split; [exact Hl|]. apply bits_bound in Ht.
  rewrite word_size_pow, <- N.pow_mul_r. eapply N.lt_le_trans; [exact Ht|].
  apply N.pow_le_mono_r; [lia|]. apply words_enough.
Qed.

Lemma bs_trim_new n : bs_trim (bs_new n).
Proof. intros i H. cbn in H. destruct i; discriminate H. Qed.

Lemma bs_trim_set b i : bs_trim b -> bs_trim (bs_set b i).
Proof.
  intros Ht j Hj. cbn in *. rewrite N.setbit_eqb in Hj. apply orb_true_iff in Hj as [E|E].
  - apply N.eqb_eq in E. lia.
  - apply Ht in E. lia.
Qed.

Lemma bs_test_true b i : bs_test b i = true <-> (i < bs_len b)%N /\ N.testbit (bs_bits b) i = true.
Proof. unfold bs_test. by rewrite andb_true_iff, N.ltb_lt. Qed.

Lemma bs_trim_union a b : bs_trim a -> bs_trim b -> bs_trim (bs_union a b).
Proof. intros Ha Hb j Hj. cbn in *. rewrite N.lor_spec in Hj. apply orb_true_iff in Hj as [E|E]; [apply Ha in E|apply Hb in E]; lia. Qed.

Lemma bs_trim_symdiff a b : bs_trim a -> bs_trim b -> bs_trim (bs_symdiff a b).
Proof.
  intros Ha Hb j Hj. cbn in *. rewrite N.lxor_spec in Hj.
  destruct (N.testbit (bs_bits a) j) eqn:E1; [apply Ha in E1; lia|].
  destruct (N.testbit (bs_bits b) j) eqn:E2; [apply Hb in E2; lia|discriminate].
Qed.

Lemma bs_test_new n i : bs_test (bs_new n) i = false.
Proof. unfold bs_test, bs_new, bs_bits, bs_len. rewrite N.bits_0. apply andb_false_r. Qed.

Lemma bs_test_trim b i : bs_trim b -> bs_test b i = N.testbit (bs_bits b) i.
Proof.
  intros Ht. unfold bs_test. destruct (N.testbit (bs_bits b) i) eqn:E; [|apply andb_false_r].
  rewrite andb_true_r. apply N.ltb_lt. apply Ht. exact E.
Qed.

Lemma bs_test_set b i j : bs_trim b -> bs_test (bs_set b i) j = N.eqb i j || bs_test b j.
Proof. intros Ht. rewrite !bs_test_trim by auto using bs_trim_set. cbn. apply N.setbit_eqb. Qed.

Lemma bs_test_union a b i : bs_trim a -> bs_trim b -> bs_test (bs_union a b) i = bs_test a i || bs_test b i.
Proof. intros Ha Hb. rewrite !bs_test_trim by auto using bs_trim_union. cbn. apply N.lor_spec. Qed.

Lemma bs_test_symdiff a b i : bs_trim a -> bs_trim b -> bs_test (bs_symdiff a b) i = xorb (bs_test a i) (bs_test b i).
Proof. intros Ha Hb. rewrite !bs_test_trim by auto using bs_trim_symdiff. cbn. apply N.lxor_spec. Qed.

Lemma bs_union_new a n : (n <= bs_len a)%N -> bs_union a (bs_new n) = a.
Proof. destruct a as [l v]. unfold bs_union, bs_new. cbn. intros H. rewrite N.lor_0_r, N.max_l by exact H. reflexivity. Qed.

Lemma bs_symdiff_new a n : (n <= bs_len a)%N -> bs_symdiff a (bs_new n) = a.
Proof. destruct a as [l v]. unfold bs_symdiff, bs_new. cbn. intros H. rewrite N.lxor_0_r, N.max_l by exact H. reflexivity. Qed.
