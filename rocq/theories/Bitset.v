(** github.com/bits-and-blooms/bitset v1.8.0, as used by CA, monitor and
    client.  The word slice is one number: bit [i] of it is bit [i mod 64]
    of word [i / 64].  Lengths are unbounded here; in Go they are below
    2^64. *)
From Verif Require Import Bytes CTngExt.
Open Scope string_scope.

(** bitset.go, BitSet: number of valid bits and the words. *)
Record bitset : Type := mkbs { bs_len : N; bs_bits : N }.

Global Instance bitset_eq_dec : EqDecision bitset.
Proof. solve_decision. Defined.

(** The zero value, var b bitset.BitSet. *)
Definition bs_zero : bitset := mkbs 0 0.

(** New. *)
Definition bs_new (n : N) : bitset := mkbs n 0.

(** Set: extends the set when needed. *)
Definition bs_set (b : bitset) (i : N) : bitset := mkbs (N.max (bs_len b) (i + 1)) (N.setbit (bs_bits b) i).

(** Test: false from the length on. *)
Definition bs_test (b : bitset) (i : N) : bool := (i <? bs_len b)%N && N.testbit (bs_bits b) i.

(** Union and SymmetricDifference: new sets with the greater length. *)
Definition bs_union (a b : bitset) : bitset := mkbs (N.max (bs_len a) (bs_len b)) (N.lor (bs_bits a) (bs_bits b)).
Definition bs_symdiff (a b : bitset) : bitset := mkbs (N.max (bs_len a) (bs_len b)) (N.lxor (bs_bits a) (bs_bits b)).

(** wordsNeeded. *)
Definition words_needed (n : N) : N := ((n + 63) / 64)%N.

(** [k] big-endian bytes of [n]. *)
Fixpoint be_fixed (k : nat) (n : N) (acc : string) : string :=
  match k with
  | O => acc
  | S k => be_fixed k (n / 256) (String (ascii_of_N (n mod 256)) acc)
  end.

Definition word_size : N := 18446744073709551616.

Fixpoint put_words (k : nat) (bits : N) : string :=
  match k with
  | O => ""
  | S k => be_fixed 8 (bits mod word_size) "" ++ put_words k (bits / word_size)
  end.

(** MarshalBinary: the length and the words, all as 64-bit big-endian numbers. *)
Definition bs_marshal (b : bitset) : string :=
  be_fixed 8 (bs_len b) "" ++ put_words (N.to_nat (words_needed (bs_len b))) (bs_bits b).

Fixpoint get_words (k : nat) (s : string) : option N :=
  match k with
  | O => Some 0%N
  | S k =>
      match split_at 8 s with
      | None => None
      | Some (w, r) => match get_words k r with Some v => Some (be_value w 0 + word_size * v)%N | None => None end
      end
  end.

(** UnmarshalBinary: [None] is an error (too few bytes); bytes left over are
    ignored, bits of the last word beyond the length are kept.  Running
    out of memory for an absurd length is not modelled. *)
Definition bs_unmarshal (s : string) : option bitset :=
  match split_at 8 s with
  | None => None
  | Some (l, r) =>
      let n := be_value l 0 in
      if (N.of_nat (len r) <? 8 * words_needed n)%N then None
      else match get_words (N.to_nat (words_needed n)) r with Some v => Some (mkbs n v) | None => None end
  end.

(** Go's conversion uint(i) of an int: modulo 2^64. *)
Definition to_uint (z : Z) : N := Z.to_N (z mod 18446744073709551616).
