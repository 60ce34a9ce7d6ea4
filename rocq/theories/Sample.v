(** CA/CRV.go:16-30 and 86-92: which bits a mass revocation sets. *)
From Verif Require Import Bytes Bitset CTngExt Revocation.

(** GenerateRandomBitPositions from the successive results [draws] of
    rand.Intn(totalBits).  [want] is numOnes, int(float64(totalBits) * density): floating point is
    not modelled.  [None]: the loop has used up all these draws and goes
    on. *)
Fixpoint random_positions (want : nat) (found : list N) (draws : list N) : option (list N) :=
  if Nat.leb want (length found) then Some found
  else
    match draws with
    | [] => None
    | d :: r => random_positions want (if bool_decide (d ∈ found) then found else (found ++ [d])%list) r
    end.

(** MassRevoke with these draws. *)
Definition mass_revoke (want : nat) (draws : list N) (v : crv) : option crv :=
  match random_positions want [] draws with Some l => Some (crv_mass_revoke v l) | None => None end.
