From Verif Require Import Bytes Base64.
From Coq Require Import Lia.
Open Scope string_scope.

Definition b64_ok (c : ascii) : bool :=
  negb (Ascii.eqb c "010") && negb (Ascii.eqb c "013") && negb (Ascii.eqb c "=").

Lemma b64_val_char (x : six) : b64_val (b64_char x) = Some x /\ b64_ok (b64_char x) = true.
Proof. destruct x as [[[[[[] []] []] []] []] []]; vm_compute; done. Qed.

Lemma strip_ok c r : b64_ok c = true -> strip_crlf (String c r) = String c (strip_crlf r).
Proof. cbn. unfold b64_ok. destruct (Ascii.eqb c "010"), (Ascii.eqb c "013"); done. Qed.

Lemma not_pad c : b64_ok c = true -> Ascii.eqb c "=" = false.
Proof. unfold b64_ok. by destruct (Ascii.eqb c "="), (Ascii.eqb c "010"), (Ascii.eqb c "013"). Qed.

Lemma b64_roundtrip (s : string) : b64_decode (b64_encode s) = Some s.
Proof.
  unfold b64_decode.
  remember (String.length s) as n eqn:Hn. assert (String.length s <= n) as Hle by lia. clear Hn.
  revert s Hle. induction n as [|n IH]; intros s Hle.
  { destruct s; [done|cbn in Hle; lia]. }
  destruct s as [|[a0 a1 a2 a3 a4 a5 a6 a7] [|[b0 b1 b2 b3 b4 b5 b6 b7] [|[c0 c1 c2 c3 c4 c5 c6 c7] r]]].
  - done.
  - cbn [b64_encode]. rewrite !strip_ok by apply b64_val_char.
    change (strip_crlf "==") with "==".
    cbn [b64_groups]. by rewrite !(proj1 (b64_val_char _)).
  - cbn [b64_encode]. rewrite !strip_ok by apply b64_val_char.
    change (strip_crlf "=") with "=". cbn [b64_groups].
    rewrite !(proj1 (b64_val_char _)). change (Ascii.eqb "=" "=") with true. cbn [is_empty negb].
    by rewrite not_pad by apply b64_val_char.
  - cbn [b64_encode]. rewrite !strip_ok by apply b64_val_char. cbn [b64_groups].
    rewrite !(proj1 (b64_val_char _)). rewrite not_pad by apply b64_val_char.
    rewrite IH; [done|]. cbn in Hle. lia.
Qed.
