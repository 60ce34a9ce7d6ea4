(** Periods: the minute of the hour, as text. *)
From Verif Require Import Bytes.
Open Scope string_scope.

(** util/helpers.go:103-118, GetCurrentPeriod: the two digits of the minute
    [m] (below 60). *)
Definition pad2 (m : nat) : string :=
  if Nat.ltb m 10 then "0" ++ itoa (Z.of_nat m) else itoa (Z.of_nat m).

(** Logger/server.go:182-189 and CA/server.go:319-326, GetCurrentPeriod: the
    minute without leading zero. *)
Definition unpadded (m : nat) : string := itoa (Z.of_nat m).
