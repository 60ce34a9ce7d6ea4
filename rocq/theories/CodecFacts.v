(** Proofs about the codecs: hex, decimal, JSON. *)
From Verif Require Import Bytes Hex Json.
From Coq Require Import DecimalString DecimalZ DecimalFacts Lia.
Open Scope string_scope.

(* ---------------------------------------------------------------- *)
(** * Strings *)

Lemma app_nil_r_s (a : string) : a ++ "" = a.
Proof. induction a as [|c a IH]; cbn; [done|]. by rewrite IH. Qed.

Lemma app_assoc_s (a b c : string) : (a ++ b) ++ c = a ++ (b ++ c).
Proof. induction a as [|x a IH]; cbn; [done|]. by rewrite IH. Qed.

Lemma len_app (a b : string) : len (a ++ b) = len a + len b.
Proof. unfold len. induction a as [|x a IH]; cbn; [done|]. by rewrite IH. Qed.

Lemma app_inj_l (a b c : string) : a ++ b = a ++ c -> b = c.
Proof. induction a as [|x a IH]; cbn; [done|]. intros H. injection H as H. by apply IH. Qed.

Lemma app_inj_len (a b c d : string) : len a = len b -> a ++ c = b ++ d -> a = b /\ c = d.
Proof.
  unfold len. revert b. induction a as [|x a IH]; intros [|y b]; cbn; intros Hl H; try done.
  injection Hl as Hl. injection H as -> H.
  destruct (IH b Hl H) as [-> ->]. done.
Qed.

Lemma app_inj_r (a b c : string) : a ++ c = b ++ c -> a = b.
Proof.
  intros H. assert (len (a ++ c) = len (b ++ c)) as Hl by by rewrite H.
  rewrite !len_app in Hl. apply (app_inj_len a b c c); [lia|done].
Qed.

(* ---------------------------------------------------------------- *)
(** * Hex *)

Lemma hex_val_digit b0 b1 b2 b3 : hex_val (hex_digit b0 b1 b2 b3) = Some (b0, b1, b2, b3).
Proof. by destruct b0, b1, b2, b3. Qed.

Lemma hex_roundtrip (s : string) : hex_decode (hex_encode s) = Some s.
Proof.
  induction s as [|[b0 b1 b2 b3 b4 b5 b6 b7] s IH]; [done|].
  cbn [hex_encode hex_decode]. by rewrite !hex_val_digit, IH.
Qed.

Lemma hex_encode_inj (a b : string) : hex_encode a = hex_encode b -> a = b.
Proof.
  intros H. apply (f_equal hex_decode) in H. rewrite !hex_roundtrip in H. congruence.
Qed.

Lemma hex_encode_len (s : string) : len (hex_encode s) = 2 * len s.
Proof.
  unfold len. induction s as [|[b0 b1 b2 b3 b4 b5 b6 b7] s IH]; [done|].
  cbn [hex_encode String.length]. rewrite IH. lia.
Qed.

Lemma hex_val_lower c b0 b1 b2 b3 : hex_val c = Some (b0, b1, b2, b3) -> hex_digit b0 b1 b2 b3 = lower c.
Proof.
  destruct c as [[] [] [] [] [] [] [] []]; vm_compute; intros H; try discriminate H; injection H as <- <- <- <-; done.
Qed.

(** Decoding then encoding gives back the text up to letter case. *)
Lemma hex_decode_encode (s b : string) : hex_decode s = Some b -> hex_encode b = lower_str s.
Proof.
  remember (len s) as n eqn:Hn. assert (len s <= n) as Hle by lia. clear Hn. revert s b Hle.
  induction n as [|n IH]; intros s b Hle H.
  - destruct s; [|cbn in Hle; lia]. cbn in H. by injection H as <-.
  - destruct s as [|h [|l r]]; cbn [hex_decode] in H; [by injection H as <-|done|].
    destruct (hex_val h) as [[[[b4 b5] b6] b7]|] eqn:Hh; [|done].
    destruct (hex_val l) as [[[[b0 b1] b2] b3]|] eqn:Hl; [|done].
    destruct (hex_decode r) as [t|] eqn:Hr; [|done]. injection H as <-.
    cbn [hex_encode lower_str].
    rewrite (hex_val_lower _ _ _ _ _ Hh), (hex_val_lower _ _ _ _ _ Hl).
    rewrite (IH r t); [done| |done]. cbn in Hle. unfold len. lia.
Qed.

(* ---------------------------------------------------------------- *)
(** * Decimal *)

Lemma itoa_head (z : Z) : forall c r, itoa z = String c r -> c <> "+"%char.
Proof.
  intros c r H. unfold itoa in H. destruct (Z.to_int z) as [d|d]; cbn in H.
  - unfold NilZero.string_of_uint in H. destruct d; cbn in H; injection H as <- _; done.
  - by injection H as <- _.
Qed.

Lemma NilZero_int_roundtrip (d : Decimal.int) : d <> Decimal.Pos Decimal.Nil -> d <> Decimal.Neg Decimal.Nil ->
  NilZero.int_of_string (NilZero.string_of_int d) = Some d.
Proof. intros H1 H2. by apply NilZero.isi. Qed.

Lemma Zto_int_nonnil (z : Z) : Z.to_int z <> Decimal.Pos Decimal.Nil /\ Z.to_int z <> Decimal.Neg Decimal.Nil.
Proof.
  destruct z as [|p|p]; cbn; (split; [|try done]); try done.
  - intros H. injection H as H. by apply (DecimalPos.Unsigned.to_uint_nonnil p).
  - intros H. injection H as H. by apply (DecimalPos.Unsigned.to_uint_nonnil p).
Qed.

Lemma atoi_itoa (z : Z) : atoi (itoa z) = Some z.
Proof.
  destruct (Zto_int_nonnil z) as [Hp Hn].
  assert (NilZero.int_of_string (itoa z) = Some (Z.to_int z)) as Hi
    by (apply NilZero_int_roundtrip; done).
  unfold atoi. destruct (itoa z) as [|c r] eqn:E.
  - rewrite Hi. by rewrite DecimalZ.of_to.
  - assert (c <> "+"%char) as Hc by by apply (itoa_head z c r).
    rewrite Hi, DecimalZ.of_to.
    destruct c as [[] [] [] [] [] [] [] []]; try done.
Qed.

Lemma itoa_inj (a b : Z) : itoa a = itoa b -> a = b.
Proof. intros H. apply (f_equal atoi) in H. rewrite !atoi_itoa in H. congruence. Qed.
