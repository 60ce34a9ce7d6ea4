(** encoding/hex, as used by crypto/types.go:101-120, 196-215, 222-253,
    Logger/buildmerkle.go:30-45 and definition/Verify.go:116-136. *)
From Verif Require Import Bytes.
Open Scope string_scope.

(** Lower-case hexadecimal digit of a 4-bit value given by its bits
    (most significant last), the table "0123456789abcdef" of Go's
    encoding/hex. *)
Definition hex_digit (b0 b1 b2 b3 : bool) : ascii :=
  match b3, b2, b1, b0 with
  | false, false, false, false => "0" | false, false, false, true => "1"
  | false, false, true, false => "2"  | false, false, true, true => "3"
  | false, true, false, false => "4"  | false, true, false, true => "5"
  | false, true, true, false => "6"   | false, true, true, true => "7"
  | true, false, false, false => "8"  | true, false, false, true => "9"
  | true, false, true, false => "a"   | true, false, true, true => "b"
  | true, true, false, false => "c"   | true, true, false, true => "d"
  | true, true, true, false => "e"    | true, true, true, true => "f"
  end%char.

(** hex.EncodeToString. *)
Fixpoint hex_encode (s : string) : string :=
  match s with
  | EmptyString => EmptyString
  | String (Ascii b0 b1 b2 b3 b4 b5 b6 b7) r =>
      String (hex_digit b4 b5 b6 b7) (String (hex_digit b0 b1 b2 b3) (hex_encode r))
  end.

(** Value of one hexadecimal character, upper or lower case
    (encoding/hex reverseHexTable). *)
Definition hex_val (c : ascii) : option (bool * bool * bool * bool) :=
  match c with
  | "0" => Some (false, false, false, false) | "1" => Some (true, false, false, false)
  | "2" => Some (false, true, false, false)  | "3" => Some (true, true, false, false)
  | "4" => Some (false, false, true, false)  | "5" => Some (true, false, true, false)
  | "6" => Some (false, true, true, false)   | "7" => Some (true, true, true, false)
  | "8" => Some (false, false, false, true)  | "9" => Some (true, false, false, true)
  | "a" | "A" => Some (false, true, false, true) | "b" | "B" => Some (true, true, false, true)
  | "c" | "C" => Some (false, false, true, true) | "d" | "D" => Some (true, false, true, true)
  | "e" | "E" => Some (false, true, true, true)  | "f" | "F" => Some (true, true, true, true)
  | _ => None
  end%char.

(** hex.Decode / hex.DecodeString: [None] is an error (bad character or
    odd length). *)
Fixpoint hex_decode (s : string) : option string :=
  match s with
  | EmptyString => Some EmptyString
  | String _ EmptyString => None
  | String h (String l r) =>
      match hex_val h, hex_val l with
      | Some (b4, b5, b6, b7), Some (b0, b1, b2, b3) =>
          match hex_decode r with
          | Some t => Some (String (Ascii b0 b1 b2 b3 b4 b5 b6 b7) t)
          | None => None
          end
      | _, _ => None
      end
  end.
