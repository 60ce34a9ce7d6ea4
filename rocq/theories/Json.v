(** encoding/json, the part used by CTngV2: values built from null,
    booleans, numbers, strings, arrays and objects.

    Simplifications, all outside ASCII input: bytes >= 0x80 inside strings are
    copied verbatim (Go copies valid UTF-8 verbatim and replaces
    invalid UTF-8 by U+FFFD; Marshal escapes U+2028 and U+2029). *)
From Verif Require Import Bytes Hex.
Open Scope string_scope.

Inductive json : Type :=
| JNull
| JBool (b : bool)
| JNum (s : string)
| JStr (s : string)
| JArr (l : list json)
| JObj (l : list (string * json)).

(* ---------------------------------------------------------------- *)
(** * Printing: json.Marshal *)

Definition quote : ascii := """"%char.

(** One byte inside a JSON string as written by encoding/json's
    encodeState.string with escapeHTML = true. *)
Definition esc_char (c : ascii) : string :=
  match c with
  | """"%char => "\"""
  | "\"%char => "\\"
  | "010"%char => "\n"
  | "013"%char => "\r"
  | "009"%char => "\t"
  | "<"%char => "\u0" ++ "03c"
  | ">"%char => "\u0" ++ "03e"
  | "&"%char => "\u0" ++ "026"
  | Ascii b0 b1 b2 b3 b4 b5 b6 b7 =>
      if negb b5 && negb b6 && negb b7
      then "\u00" ++ String (hex_digit b4 b5 b6 b7) (String (hex_digit b0 b1 b2 b3) "")
      else String c ""
  end.

Fixpoint esc_str (s : string) : string :=
  match s with
  | EmptyString => EmptyString
  | String c r => esc_char c ++ esc_str r
  end.

Definition print_str (s : string) : string := """" ++ esc_str s ++ """".

(** json.Marshal of a value; no white space is produced. *)
Fixpoint print_json (v : json) : string :=
  match v with
  | JNull => "null"
  | JBool true => "true"
  | JBool false => "false"
  | JNum s => s
  | JStr s => print_str s
  | JArr l =>
      "[" ++ (fix go (l : list json) : string :=
                match l with
                | [] => ""
                | [x] => print_json x
                | x :: r => print_json x ++ "," ++ go r
                end) l ++ "]"
  | JObj l =>
      "{" ++ (fix go (l : list (string * json)) : string :=
                match l with
                | [] => ""
                | [(k, x)] => print_str k ++ ":" ++ print_json x
                | (k, x) :: r => print_str k ++ ":" ++ print_json x ++ "," ++ go r
                end) l ++ "}"
  end.

(* ---------------------------------------------------------------- *)
(** * Parsing: json.Unmarshal *)

Definition is_ws (c : ascii) : bool :=
  match c with
  | " "%char | "009"%char | "010"%char | "013"%char => true
  | _ => false
  end.

Fixpoint skip_ws (s : string) : string :=
  match s with
  | String c r => if is_ws c then skip_ws r else s
  | EmptyString => EmptyString
  end.

Definition nib (b : bool * bool * bool * bool) : N :=
  let '(b0, b1, b2, b3) := b in
  ((if b0 then 1 else 0) + (if b1 then 2 else 0) + (if b2 then 4 else 0) + (if b3 then 8 else 0))%N.

(** Four hexadecimal digits. *)
Definition hex4 (a b c d : ascii) : option N :=
  match hex_val a, hex_val b, hex_val c, hex_val d with
  | Some x, Some y, Some z, Some w =>
      Some (nib x * 4096 + nib y * 256 + nib z * 16 + nib w)%N
  | _, _, _, _ => None
  end.

Definition chr (n : N) : string := String (ascii_of_N n) "".

(** UTF-8 encoding of a code point (utf8.EncodeRune); those of the escapes below are less than 65536. *)
Definition utf8_encode (n : N) : string :=
  (if n <? 128 then chr n
   else if n <? 2048 then chr (192 + n / 64) ++ chr (128 + n mod 64)
   else chr (224 + n / 4096) ++ chr (128 + (n / 64) mod 64) ++ chr (128 + n mod 64))%N.

Definition is_surrogate (n : N) : bool := ((55296 <=? n) && (n <? 57344))%N.

(** Body of a JSON string after the opening quote: decoded string and
    the input after the closing quote (scanner + unquote of encoding/json).
    Simplification: a surrogate escape always becomes U+FFFD; Go joins well-formed
    pairs. *)
Fixpoint parse_str_body (s : string) : option (string * string) :=
  match s with
  | EmptyString => None
  | String """" r => Some (EmptyString, r)
  | String "\" (String "u" (String a (String b (String c (String d r))))) =>
      match hex4 a b c d with
      | None => None
      | Some n =>
          match parse_str_body r with
          | None => None
          | Some (t, rest) =>
              Some ((if is_surrogate n then utf8_encode 65533 else utf8_encode n) ++ t, rest)
          end
      end
  | String "\" (String e r) =>
      let out :=
        match e with
        | """" => Some """"%char
        | "\" => Some "\"%char
        | "/" => Some "/"%char
        | "b" => Some "008"%char
        | "f" => Some "012"%char
        | "n" => Some "010"%char
        | "r" => Some "013"%char
        | "t" => Some "009"%char
        | _ => None
        end%char in
      match out with
      | None => None
      | Some ch =>
          match parse_str_body r with
          | None => None
          | Some (t, rest) => Some (String ch t, rest)
          end
      end
  | String c r =>
      if (N_of_ascii c <? 32)%N then None
      else if Ascii.eqb c "\" then None
      else
        match parse_str_body r with
        | None => None
        | Some (t, rest) => Some (String c t, rest)
        end
  end.

Definition is_digit (c : ascii) : bool :=
  let n := N_of_ascii c in ((48 <=? n) && (n <=? 57))%N.

Fixpoint take_digits (s : string) : string * string :=
  match s with
  | String c r => if is_digit c then let '(d, t) := take_digits r in (String c d, t) else ("", s)
  | EmptyString => ("", "")
  end.

(** JSON number grammar: -? (0 | [1-9][0-9]* ) (. [0-9]+)? ([eE] [+-]? [0-9]+)? *)
Definition parse_num (s : string) : option (string * string) :=
  let '(sign, s1) := match s with String "-" r => ("-", r) | _ => ("", s) end in
  let '(ip, s2) :=
    match s1 with
    | String "0" r => ("0", r)
    | _ => take_digits s1
    end in
  if is_empty ip then None else
  let frac :=
    match s2 with
    | String "." r =>
        let '(d, t) := take_digits r in if is_empty d then None else Some ("." ++ d, t)
    | _ => Some ("", s2)
    end in
  match frac with
  | None => None
  | Some (fp, s3) =>
      let expo :=
        match s3 with
        | String (("e" | "E") as e) r =>
            let '(sg, r1) :=
              match r with
              | String (("+" | "-") as c) r1 => (String c "", r1)
              | _ => ("", r)
              end in
            let '(d, t) := take_digits r1 in
            if is_empty d then None else Some (String e "" ++ sg ++ d, t)
        | _ => Some ("", s3)
        end in
      match expo with
      | None => None
      | Some (ep, s4) => Some (sign ++ ip ++ fp ++ ep, s4)
      end
  end.

(** [parse_val n s]: a value at the start of [s] and the rest; [n] bounds
    the recursion depth plus the number of elements, and the length
    of the input is always enough. *)
Fixpoint parse_val (n : nat) (s : string) : option (json * string) :=
  match n with
  | O => None
  | S n =>
      match skip_ws s with
      | String """" r =>
          match parse_str_body r with Some (t, r') => Some (JStr t, r') | None => None end
      | String "n" (String "u" (String "l" (String "l" r))) => Some (JNull, r)
      | String "t" (String "r" (String "u" (String "e" r))) => Some (JBool true, r)
      | String "f" (String "a" (String "l" (String "s" (String "e" r)))) => Some (JBool false, r)
      | String "[" r =>
          match skip_ws r with
          | String "]" r' => Some (JArr [], r')
          | _ =>
              match parse_elems n r with
              | Some (l, r') => Some (JArr l, r')
              | None => None
              end
          end
      | String "{" r =>
          match skip_ws r with
          | String "}" r' => Some (JObj [], r')
          | _ =>
              match parse_members n r with
              | Some (l, r') => Some (JObj l, r')
              | None => None
              end
          end
      | s' => match parse_num s' with Some (t, r) => Some (JNum t, r) | None => None end
      end
  end
with parse_elems (n : nat) (s : string) : option (list json * string) :=
  match n with
  | O => None
  | S n =>
      match parse_val n s with
      | None => None
      | Some (v, r) =>
          match skip_ws r with
          | String "," r' =>
              match parse_elems n r' with
              | Some (l, r'') => Some (v :: l, r'')
              | None => None
              end
          | String "]" r' => Some ([v], r')
          | _ => None
          end
      end
  end
with parse_members (n : nat) (s : string) : option (list (string * json) * string) :=
  match n with
  | O => None
  | S n =>
      match skip_ws s with
      | String """" r0 =>
          match parse_str_body r0 with
          | None => None
          | Some (k, r1) =>
              match skip_ws r1 with
              | String ":" r2 =>
                  match parse_val n r2 with
                  | None => None
                  | Some (v, r3) =>
                      match skip_ws r3 with
                      | String "," r4 =>
                          match parse_members n r4 with
                          | Some (l, r5) => Some ((k, v) :: l, r5)
                          | None => None
                          end
                      | String "}" r4 => Some ([(k, v)], r4)
                      | _ => None
                      end
                  end
              | _ => None
              end
          end
      | _ => None
      end
  end.

(** json.Unmarshal syntax check and parse: the whole input is one value
    surrounded by white space. *)
Definition parse_json (s : string) : option json :=
  match parse_val (S (len s)) s with
  | Some (v, r) => if is_empty (skip_ws r) then Some v else None
  | None => None
  end.

(** json.Decoder.Decode: the first value of the stream; trailing input
    is ignored. *)
Definition decode_json (s : string) : option json :=
  match parse_val (S (len s)) s with
  | Some (v, _) => Some v
  | None => None
  end.

(* ---------------------------------------------------------------- *)
(** * Decoding into Go types *)

(** ASCII case folding of a byte. *)
Definition lower (c : ascii) : ascii :=
  let n := N_of_ascii c in
  if ((65 <=? n) && (n <=? 90))%N then ascii_of_N (n + 32) else c.

Fixpoint lower_str (s : string) : string :=
  match s with
  | EmptyString => EmptyString
  | String c r => String (lower c) (lower_str r)
  end.

(** Unmarshal into a Go string variable holding [old]: null leaves it. *)
Definition dec_string (old : string) (v : json) : option string :=
  match v with
  | JStr s => Some s
  | JNull => Some old
  | _ => None
  end.

(** Unmarshal into an int variable (simplification: no range check and
    only plain integer literals). *)
Definition dec_int (old : Z) (v : json) : option Z :=
  match v with
  | JNum s => atoi s
  | JNull => Some old
  | _ => None
  end.

(** Unmarshal into []string: every element a string (null: ""). *)
Fixpoint dec_strings (l : list json) : option (list string) :=
  match l with
  | [] => Some []
  | v :: r =>
      match dec_string "" v, dec_strings r with
      | Some s, Some t => Some (s :: t)
      | _, _ => None
      end
  end.

Definition dec_string_slice (old : list string) (v : json) : option (list string) :=
  match v with
  | JArr l => dec_strings l
  | JNull => Some []
  | _ => None
  end.

(** Unmarshal into map[string]string starting from an empty map:
    later keys override earlier ones, null stores "" and any other type is an error. *)
Fixpoint dec_string_map (acc : gmap string string) (l : list (string * json)) : option (gmap string string) :=
  match l with
  | [] => Some acc
  | (k, v) :: r =>
      match dec_string "" v with
      | Some s => dec_string_map (<[k := s]> acc) r
      | None => None
      end
  end.

Definition unmarshal_string_map (s : string) : option (gmap string string) :=
  match parse_json s with
  | Some (JObj l) => dec_string_map ∅ l
  | Some JNull => Some ∅
  | _ => None
  end.

(** Go's m[k] on map[string]string. *)
Definition map_get (m : gmap string string) (k : string) : string :=
  match m !! k with Some v => v | None => "" end.
