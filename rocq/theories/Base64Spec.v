(** The encoders of Base64.v and Hex.v against SpecBase64.v. *)
From Verif Require Import Bytes Hex Base64 SpecBase64.
Open Scope string_scope.

Notation v1 b := (if b then 1 else 0)%N.
Definition val8 (a0 a1 a2 a3 a4 a5 a6 a7 : bool) : N := (v1 a0 + 2 * v1 a1 + 4 * v1 a2 + 8 * v1 a3 + 16 * v1 a4 + 32 * v1 a5 + 64 * v1 a6 + 128 * v1 a7)%N.
Lemma byte_val a0 a1 a2 a3 a4 a5 a6 a7 : N_of_ascii (Ascii a0 a1 a2 a3 a4 a5 a6 a7) = val8 a0 a1 a2 a3 a4 a5 a6 a7.
Proof. by destruct a0, a1, a2, a3, a4, a5, a6, a7. Qed.
Lemma char_digit a0 a1 a2 a3 a4 a5 : b64_char (a0, a1, a2, a3, a4, a5) = digit64 (v1 a0 + 2 * v1 a1 + 4 * v1 a2 + 8 * v1 a3 + 16 * v1 a4 + 32 * v1 a5).
Proof. by destruct a0, a1, a2, a3, a4, a5. Qed.

Lemma v1_le (b : bool) : (v1 b <= 1)%N. Proof. by destruct b. Qed.
(** A number of four digits. *)
Lemma digits4 p q u v : (p < 64)%N -> (q < 64)%N -> (u < 64)%N -> (v < 64)%N -> let n := (262144 * p + 4096 * q + 64 * u + v)%N in
  place n 3 = digit64 p /\ place n 2 = digit64 q /\ place n 1 = digit64 u /\ place n 0 = digit64 v.
Proof.
  intros Hp Hq Hu Hv n. unfold place. change (64 ^ 3)%N with 262144%N. change (64 ^ 2)%N with 4096%N. change (64 ^ 1)%N with 64%N. change (64 ^ 0)%N with 1%N.
  assert (n / 262144 = p)%N as -> by (symmetry; apply (N.div_unique _ _ _ (4096 * q + 64 * u + v)); subst n; lia).
  assert (n / 4096 = 64 * p + q)%N as -> by (symmetry; apply (N.div_unique _ _ _ (64 * u + v)); subst n; lia).
  assert (n / 64 = 64 * (64 * p + q) + u)%N as -> by (symmetry; apply (N.div_unique _ _ _ v); subst n; lia).
  assert (n / 1 = 64 * (64 * (64 * p + q) + u) + v)%N as -> by (rewrite N.div_1_r; subst n; lia).
  split_and!; f_equal; symmetry; [apply (N.mod_unique _ _ 0)|apply (N.mod_unique _ _ p)|apply (N.mod_unique _ _ (64 * p + q))|apply (N.mod_unique _ _ (64 * (64 * p + q) + u))]; lia.
Qed.
Lemma group_chars a0 a1 a2 a3 a4 a5 a6 a7 b0 b1 b2 b3 b4 b5 b6 b7 c0 c1 c2 c3 c4 c5 c6 c7 :
  let n := group_of (Ascii a0 a1 a2 a3 a4 a5 a6 a7) (Ascii b0 b1 b2 b3 b4 b5 b6 b7) (Ascii c0 c1 c2 c3 c4 c5 c6 c7) in
  place n 3 = b64_char (a2, a3, a4, a5, a6, a7) /\ place n 2 = b64_char (b4, b5, b6, b7, a0, a1) /\
  place n 1 = b64_char (c6, c7, b0, b1, b2, b3) /\ place n 0 = b64_char (c0, c1, c2, c3, c4, c5).
Proof.
  intros n. rewrite !char_digit. subst n. unfold group_of. rewrite !byte_val. unfold val8.
  pose proof (v1_le a0); pose proof (v1_le a1); pose proof (v1_le a2); pose proof (v1_le a3); pose proof (v1_le a4); pose proof (v1_le a5); pose proof (v1_le a6); pose proof (v1_le a7).
  pose proof (v1_le b0); pose proof (v1_le b1); pose proof (v1_le b2); pose proof (v1_le b3); pose proof (v1_le b4); pose proof (v1_le b5); pose proof (v1_le b6); pose proof (v1_le b7).
  pose proof (v1_le c0); pose proof (v1_le c1); pose proof (v1_le c2); pose proof (v1_le c3); pose proof (v1_le c4); pose proof (v1_le c5); pose proof (v1_le c6); pose proof (v1_le c7).
  repeat match goal with |- context [if ?b then 1%N else 0%N] => generalize dependent (if b then 1%N else 0%N); intros end.
  match goal with |- place ?n 3 = digit64 ?p /\ place _ 2 = digit64 ?q /\ place _ 1 = digit64 ?u /\ place _ 0 = digit64 ?v =>
    replace n with (262144 * p + 4096 * q + 64 * u + v)%N by lia; apply (digits4 p q u v); lia end.
Qed.

Lemma encode_spec s : b64_encode s = base64_of s.
Proof.
  assert (H : forall n s, String.length s <= n -> b64_encode s = base64_of s); [|by eapply H].
  clear s. intros n. induction n as [|n IH]; intros s Hs; [by destruct s; [|cbn in Hs; lia]|].
  destruct s as [|[a0 a1 a2 a3 a4 a5 a6 a7] [|[b0 b1 b2 b3 b4 b5 b6 b7] [|[c0 c1 c2 c3 c4 c5 c6 c7] r]]]; [done|..].
  - destruct (group_chars a0 a1 a2 a3 a4 a5 a6 a7 false false false false false false false false false false false false false false false false) as (E1 & E2 & _).
    cbn [b64_encode base64_of]. unfold zero. by rewrite E1, E2.
  - destruct (group_chars a0 a1 a2 a3 a4 a5 a6 a7 b0 b1 b2 b3 b4 b5 b6 b7 false false false false false false false false) as (E1 & E2 & E3 & _).
    cbn [b64_encode base64_of]. unfold zero. by rewrite E1, E2, E3.
  - destruct (group_chars a0 a1 a2 a3 a4 a5 a6 a7 b0 b1 b2 b3 b4 b5 b6 b7 c0 c1 c2 c3 c4 c5 c6 c7) as (E1 & E2 & E3 & E4).
    cbn [b64_encode base64_of]. rewrite E1, E2, E3, E4, IH; [done|]. cbn in Hs. lia.
Qed.

Lemma hex_spec s : hex_encode s = base16_of s.
Proof.
  induction s as [|[a0 a1 a2 a3 a4 a5 a6 a7] r IH]; [done|]. cbn [hex_encode base16_of]. rewrite IH. by destruct a0, a1, a2, a3, a4, a5, a6, a7.
Qed.
