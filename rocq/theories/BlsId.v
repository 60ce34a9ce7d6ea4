(** crypto/types.go:15-38 and crypto/bls.go:29-63: the identifiers of the entities in the BLS threshold scheme, and the outcome of the
    generation of keys.

    The library herumi/bls is not in the repository; what it does with the hexadecimal text of an identifier is taken from its documentation: SetHexString reads a number in
    base 16 and fails if it is not smaller than the order of the group (the Go wrapper panics on the empty text, as it takes the address of the first byte).  SerializeToHexStr is a parameter. *)
From Verif Require Import Bytes Hex Crypto CryptoIO Gen.
Open Scope string_scope.

(** The order of BLS12-381, the curve chosen at crypto/bls.go:113-117. *)
Definition group_order : N := 52435875175126190479447740508185965837690552500527637822603658699938581184513.

(** The value of four bits, least significant first. *)
Definition nibble (v : bool * bool * bool * bool) : N :=
  let '(b0, b1, b2, b3) := v in (N.b2n b0 + 2 * N.b2n b1 + 4 * N.b2n b2 + 8 * N.b2n b3)%N.

(** The number written in base 16; [None]: a character that is not a digit. *)
Fixpoint hex_number (s : string) (acc : N) : option N :=
  match s with
  | "" => Some acc
  | String c r => match hex_val c with Some v => hex_number r (16 * acc + nibble v) | None => None end
  end.

(** bls.ID.SetHexString; [None]: an error, or the panic on the empty text. *)
Definition set_hex_string (s : string) : option N :=
  if is_empty s then None
  else match hex_number s 0 with Some n => if N.ltb n group_order then Some n else None | None => None end.

(** crypto/types.go:22-32, BlsID; [None]: panic. *)
Definition bls_id (id : string) : option N := set_hex_string (hex_encode id).

(** crypto/types.go:34-38, CTngIDfromBlsID; [ser] is ID.Serialize; [None]: the error of hex.DecodeString. *)
Definition ctng_id (ser : N -> string) (n : N) : option string := hex_decode (hex_encode (ser n)).

(** crypto/bls.go:29-63, GenerateThresholdKeypairs with the panics of BlsID: an error for a threshold below 2, a panic, or identifiers and keys. *)
Inductive keygen {P : prims} := KgError | KgPanic | KgKeys (ids : list N) (pubs : gmap string (bls_pub P)) (privs : gmap string (bls_sec P)).
Arguments keygen : clear implicits.

Section gen.
Context {P : prims} (K : keyio P) (bls_rand : nat -> bls_sec P).

Definition generate_keypairs (ids : list string) (threshold : nat) : keygen P :=
  match threshold_keypairs K bls_rand ids threshold with
  | None => KgError
  | Some (pubs, privs) => match mapM bls_id ids with Some ns => KgKeys ns pubs privs | None => KgPanic end
  end.
End gen.
