(** Vocabulary for the identifiers in the threshold scheme. *)
From Verif Require Import Bytes.
Open Scope string_scope.

(** The number whose digits in base 256 are the bytes of a name, the first byte the most significant. *)
Fixpoint number_of (s : string) : N :=
  match s with
  | "" => 0%N
  | String c r => (N_of_ascii c * 256 ^ N.of_nat (String.length r) + number_of r)%N
  end.

(** The name is not empty and its first byte is not zero. *)
Definition good_name (s : string) : Prop := exists c r, s = String c r /\ c <> "000"%char.
