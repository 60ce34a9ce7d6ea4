(** Go strings and byte slices.

    A Go string (and a []byte) is a Coq [string]: a list of 8-bit
    characters.  [len] is the Go builtin len. *)
From Coq Require Export String Ascii ZArith List Bool.
From stdpp Require Export base list gmap strings.
From Coq Require Import DecimalString.

Notation bytes := string (only parsing).

(** Go [len(s)] for a string or byte slice. *)
Definition len (s : string) : nat := String.length s.

(** Go [s == ""]. *)
Definition is_empty (s : string) : bool :=
  match s with EmptyString => true | _ => false end.

(** Byte-wise lexicographic order: Go [<] on strings. *)
Fixpoint str_ltb (a b : string) : bool :=
  match a, b with
  | _, EmptyString => false
  | EmptyString, String _ _ => true
  | String x a', String y b' =>
      if (N_of_ascii x <? N_of_ascii y)%N then true
      else if (N_of_ascii y <? N_of_ascii x)%N then false
      else str_ltb a' b'
  end.

Definition str_leb (a b : string) : bool := negb (str_ltb b a).

(** Go [strconv.Itoa].  The model has unbounded integers; Go's int is 64 bit. *)
Definition itoa (z : Z) : string := NilZero.string_of_int (Z.to_int z).

(** Go [strconv.Atoi]: optional sign, then at least one digit; leading
    zeros are accepted.  Simplification: no 64-bit range error. *)
Definition atoi (s : string) : option Z :=
  match s with
  | String "+" (String c r) =>
      match NilZero.uint_of_string (String c r) with
      | Some d => Some (Z.of_uint d)
      | None => None
      end
  | _ =>
      match NilZero.int_of_string s with
      | Some d => Some (Z.of_int d)
      | None => None
      end
  end.

(** std++ switches simplification of string append off; switch it on again. *)
Global Arguments String.append !_ _ / : simpl nomatch.
