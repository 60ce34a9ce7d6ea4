(** The base 64 and base 16 encodings as RFC 4648, sections 4 and 8 say it (base 16 with small letters, as encoding/hex does). *)
From Verif Require Import Bytes.
Open Scope string_scope.

Definition alphabet : string := "ABCDEFGHIJKLMNOPQRSTUVWXYZabcdefghijklmnopqrstuvwxyz0123456789+/".
Definition digit64 (n : N) : ascii := default "="%char (String.get (N.to_nat n) alphabet).

(** Three bytes are one number of 24 bits, written with four digits in base 64, the highest one first. *)
Definition group_of (a b c : ascii) : N := (65536 * N_of_ascii a + 256 * N_of_ascii b + N_of_ascii c)%N.
Definition place (n : N) (i : N) : ascii := digit64 ((n / 64 ^ i) mod 64)%N.

(** Groups of three bytes; missing bytes are zero, and the digits that depend only on them are =. *)
Fixpoint base64_of (s : string) : string :=
  match s with
  | EmptyString => EmptyString
  | String a EmptyString => let n := group_of a zero zero in String (place n 3) (String (place n 2) "==")
  | String a (String b EmptyString) => let n := group_of a b zero in String (place n 3) (String (place n 2) (String (place n 1) "="))
  | String a (String b (String c r)) => let n := group_of a b c in String (place n 3) (String (place n 2) (String (place n 1) (String (place n 0) (base64_of r))))
  end.

Definition digit16 (n : N) : ascii := default "="%char (String.get (N.to_nat n) "0123456789abcdef").
Fixpoint base16_of (s : string) : string :=
  match s with
  | EmptyString => EmptyString
  | String c r => String (digit16 (N_of_ascii c / 16)) (String (digit16 (N_of_ascii c mod 16)) (base16_of r))
  end.
