(** Identifiers in the threshold scheme: proofs. *)
From Verif Require Import Bytes Hex Crypto CryptoIO Gen BlsId SpecBlsId CodecFacts GenFacts.
From Coq Require Import Lia.
Open Scope string_scope.

Lemma byte_value b0 b1 b2 b3 b4 b5 b6 b7 acc :
  (16 * (16 * acc + nibble (b4, b5, b6, b7)) + nibble (b0, b1, b2, b3) = 256 * acc + N_of_ascii (Ascii b0 b1 b2 b3 b4 b5 b6 b7))%N.
Proof. destruct b0, b1, b2, b3, b4, b5, b6, b7; cbn -[N.mul]; lia. Qed.

Lemma hex_number_encode s : forall acc, hex_number (hex_encode s) acc = Some (acc * 256 ^ N.of_nat (len s) + number_of s)%N.
Proof.
  induction s as [|[b0 b1 b2 b3 b4 b5 b6 b7] s IH]; intros acc; [cbn; f_equal; lia|].
  cbn [hex_encode hex_number]. rewrite !hex_val_digit, byte_value, IH. cbn [number_of]. f_equal. unfold len. cbn [String.length].
  rewrite Nat2N.inj_succ, N.pow_succ_r'. fold (len s). lia.
Qed.

Lemma is_empty_encode s : is_empty (hex_encode s) = is_empty s.
Proof. by destruct s as [|[] s]. Qed.

Theorem bls_id_value s : bls_id s = if is_empty s then None else if N.ltb (number_of s) group_order then Some (number_of s) else None.
Proof. unfold bls_id, set_hex_string. rewrite is_empty_encode, hex_number_encode. by rewrite N.mul_0_l, N.add_0_l. Qed.

Lemma byte_lt c : (N_of_ascii c < 256)%N.
Proof. apply N_ascii_bounded. Qed.
Lemma number_lt s : (number_of s < 256 ^ N.of_nat (len s))%N.
Proof.
  induction s as [|c s IH]; [cbn; lia|]. unfold len. cbn [number_of String.length]. fold (len s). rewrite Nat2N.inj_succ, N.pow_succ_r'.
  pose proof (byte_lt c). nia.
Qed.
Lemma number_same_len a : forall b, len a = len b -> number_of a = number_of b -> a = b.
Proof.
  induction a as [|c a IH]; intros [|c' b] El En; try done. unfold len in El. cbn [String.length] in El. injection El as El.
  cbn [number_of] in En. rewrite El in En. pose proof (number_lt a) as Ha. pose proof (number_lt b) as Hb. unfold len in Ha, Hb. rewrite El in Ha.
  set (B := (256 ^ N.of_nat (String.length b))%N) in *.
  assert (N_of_ascii c = N_of_ascii c') as Ec by nia.
  assert (number_of a = number_of b) as Er by (rewrite Ec in En; lia).
  rewrite (IH b El Er). f_equal. rewrite <- (ascii_N_embedding c), Ec. apply ascii_N_embedding.
Qed.
Lemma number_ge c s : c <> "000"%char -> (256 ^ N.of_nat (len s) <= number_of (String c s))%N.
Proof.
  intros Hc. cbn [number_of]. fold (len s). assert (N_of_ascii c <> 0)%N; [|nia].
  intros E. apply Hc. rewrite <- (ascii_N_embedding c), E. done.
Qed.
Lemma number_inj a b : good_name a -> good_name b -> number_of a = number_of b -> a = b.
Proof.
  intros (ca & ra & -> & Ha) (cb & rb & -> & Hb) E. apply number_same_len; [|done].
  pose proof (number_ge ca ra Ha) as A1. pose proof (number_lt (String ca ra)) as A2. pose proof (number_ge cb rb Hb) as B1. pose proof (number_lt (String cb rb)) as B2.
  unfold len in *. cbn [String.length] in *. f_equal.
  destruct (Nat.lt_trichotomy (String.length ra) (String.length rb)) as [H|[H|H]]; [|done|]; exfalso.
  - assert (256 ^ N.of_nat (Datatypes.S (String.length ra)) <= 256 ^ N.of_nat (String.length rb))%N by (apply N.pow_le_mono_r; lia). lia.
  - assert (256 ^ N.of_nat (Datatypes.S (String.length rb)) <= 256 ^ N.of_nat (String.length ra))%N by (apply N.pow_le_mono_r; lia). lia.
Qed.

Theorem ids_unique a b n : good_name a -> good_name b -> bls_id a = Some n -> bls_id b = Some n -> a = b.
Proof.
  intros Ha Hb. rewrite !bls_id_value. destruct (is_empty a), (is_empty b); try done.
  destruct (N.ltb _ _); [|done]. destruct (N.ltb _ _); [|done]. intros [= <-] [= E]. by apply number_inj.
Qed.

Theorem panics_iff s : bls_id s = None <-> s = "" \/ (group_order <= number_of s)%N.
Proof.
  rewrite bls_id_value. destruct s as [|c s]; [split; [by left|done]|]. cbn [is_empty].
  destruct (N.ltb_spec (number_of (String c s)) group_order) as [H|H].
  - split; [done|]. intros [|]; [done|lia].
  - split; [by right|done].
Qed.
Lemma short_ok s : s <> "" -> len s <= 31 -> is_Some (bls_id s).
Proof.
  intros Hs Hl. destruct (bls_id s) eqn:E; [eauto|]. apply panics_iff in E as [|E]; [done|]. exfalso.
  pose proof (number_lt s) as H. assert (256 ^ N.of_nat (len s) <= 256 ^ 31)%N by (apply N.pow_le_mono_r; lia).
  assert (256 ^ 31 < group_order)%N by (vm_compute; reflexivity). lia.
Qed.
Lemma long_panics s : good_name s -> 33 <= len s -> bls_id s = None.
Proof.
  intros (c & r & -> & Hc) Hl. apply panics_iff. right. pose proof (number_ge c r Hc) as H. unfold len in Hl. cbn [String.length] in Hl. fold (len r) in Hl.
  assert (256 ^ 32 <= 256 ^ N.of_nat (len r))%N by (apply N.pow_le_mono_r; lia).
  assert (group_order < 256 ^ 32)%N by (vm_compute; reflexivity). lia.
Qed.

(** The reverse mapping is wrong for every name that does not have 32 bytes. *)
Theorem reverse_wrong ser s n : (forall m, len (ser m) = 32) -> bls_id s = Some n -> len s <> 32 -> ctng_id ser n <> Some s.
Proof. intros Hs _ Hl. unfold ctng_id. rewrite hex_roundtrip. intros [= E]. apply Hl. by rewrite <- E. Qed.

Section gen.
Context {P : prims} (K : keyio P) (bls_rand : nat -> bls_sec P).

Lemma keypairs_some ids t : 2 <= t -> exists pubs privs, threshold_keypairs K bls_rand ids t = Some (pubs, privs).
Proof.
  intros H. unfold threshold_keypairs. rewrite (proj2 (Nat.ltb_ge t 2)) by lia. destruct (bls_gen K bls_rand t 0 ids ∅ ∅) as [a b] eqn:E. eauto.
Qed.

Theorem keygen_outcome ids t :
  match generate_keypairs K bls_rand ids t with
  | KgError => t < 2
  | KgPanic => 2 <= t /\ exists id, id ∈ ids /\ (id = "" \/ (group_order <= number_of id)%N)
  | KgKeys ns pubs privs => 2 <= t /\ ns = map number_of ids /\ (forall id, id ∈ ids -> id <> "" /\ (number_of id < group_order)%N) /\
      threshold_keypairs K bls_rand ids t = Some (pubs, privs)
  end.
Proof.
  unfold generate_keypairs. destruct (decide (t < 2)) as [Ht|Ht].
  - unfold threshold_keypairs. rewrite (proj2 (Nat.ltb_lt t 2)) by done. done.
  - destruct (keypairs_some ids t) as (pubs & privs & ->); [lia|]. destruct (mapM bls_id ids) as [ns|] eqn:E.
    + split; [lia|]. apply mapM_Some in E. split_and!; [|intros id Hid|done].
      * induction E as [|id n ids ns H E IH]; [done|]. cbn. rewrite IH. f_equal. rewrite bls_id_value in H.
        destruct (is_empty id); [done|]. destruct (N.ltb _ _); [|done]. by injection H.
      * assert (exists n, bls_id id = Some n) as [n Hn].
        { clear -E Hid. induction E as [|id' n ids ns H E IH]; [by apply elem_of_nil in Hid|]. apply elem_of_cons in Hid as [->|Hid]; eauto. }
        rewrite bls_id_value in Hn. destruct id; [done|]. cbn [is_empty] in Hn. split; [done|].
        destruct (N.ltb_spec (number_of (String a id)) group_order); [done|discriminate].
    + split; [lia|]. apply mapM_None in E. apply Exists_exists in E as (id & Hid & E). exists id. split; [done|]. by apply panics_iff.
Qed.

Theorem keygen_good ids t : 2 <= t -> NoDup ids -> (forall id, id ∈ ids -> good_name id /\ len id <= 31) ->
  exists ns pubs privs, generate_keypairs K bls_rand ids t = KgKeys ns pubs privs /\ NoDup ns /\ length ns = length ids.
Proof.
  intros Ht Hn Hg. pose proof (keygen_outcome ids t) as H. destruct (generate_keypairs K bls_rand ids t) as [| |ns pubs privs] eqn:E.
  - lia.
  - exfalso. destruct H as (_ & id & Hid & Hx). destruct (Hg id Hid) as [(c & r & -> & _) Hl]. destruct (short_ok (String c r)) as [n Hs]; [done|done|].
    apply panics_iff in Hx. congruence.
  - destruct H as (_ & -> & _ & _). exists (map number_of ids), pubs, privs. split; [done|]. split; [|by rewrite map_length].
    clear E. induction ids as [|id ids IH]; [constructor|]. apply NoDup_cons in Hn as [Hnin Hn]. cbn. apply NoDup_cons. split.
    + intros Hin. apply elem_of_list_fmap in Hin as (id' & E & Hid'). apply Hnin.
      rewrite (number_inj id id'); [done|apply Hg; by left|apply Hg; by right|done].
    + apply IH; [done|]. intros id' Hid'. apply Hg. by right.
Qed.

(** The gossipers of a generated deployment. *)
Theorem generated_good n : 2 <= n <= 1000 ->
  exists ns pubs privs, generate_keypairs K bls_rand (urls KGossiper n) n = KgKeys ns pubs privs /\ NoDup ns /\ length ns = n.
Proof.
  intros Hn. destruct (keygen_good (urls KGossiper n) n) as (ns & pubs & privs & H1 & H2 & H3); [lia| | |].
  - unfold urls. apply NoDup_fmap_2_strong; [|apply NoDup_seq]. intros i j Hi _ E. apply elem_of_seq in Hi. eapply url_inj; [|exact E]. lia.
  - intros id Hid. unfold urls in Hid. apply elem_of_list_fmap in Hid as (i & -> & Hi). apply elem_of_seq in Hi. unfold url. split.
    + eexists _, _. split; [reflexivity|]. discriminate.
    + rewrite len_app. destruct (postfix_spec i) as [-> _]; [lia|]. cbn. lia.
  - exists ns, pubs, privs. split; [done|]. split; [done|]. rewrite H3. unfold urls. by rewrite map_length, seq_length.
Qed.
End gen.

(** Two names with the same identifier. *)
Lemma same_identifier : exists a b n, a <> b /\ bls_id a = Some n /\ bls_id b = Some n.
Proof. exists "localhost:9000", (String "000" "localhost:9000"), (number_of "localhost:9000"). split; [done|]. split; vm_compute; reflexivity. Qed.
(** A name without identifier. *)
Lemma no_identifier : bls_id "gossiper-17.example-university.edu:9000" = None.
Proof. vm_compute. reflexivity. Qed.
