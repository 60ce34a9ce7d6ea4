(** Predicates used in the statements about text formats. *)
From Verif Require Import Bytes.

(** Not a double quote, not a backslash, not a control character. *)
Definition plain_char (c : ascii) : bool :=
  negb (Ascii.eqb c """") && negb (Ascii.eqb c "\") && (32 <=? N_of_ascii c)%N.

(** A string of such characters: every URL, for instance. *)
Fixpoint plain_id (s : string) : bool :=
  match s with EmptyString => true | String c r => plain_char c && plain_id r end.

(** Byte-wise order as a relation. *)
Definition str_le (a b : string) : Prop := str_leb a b = true.

(** The code point a string of one to three bytes encodes in UTF-8. *)
Definition utf8_value (s : string) : option N :=
  let tail (c : ascii) : option N := let v := N_of_ascii c in if ((128 <=? v) && (v <? 192))%N then Some (v - 128)%N else None in
  match s with
  | String a EmptyString => if (N_of_ascii a <? 128)%N then Some (N_of_ascii a) else None
  | String a (String b EmptyString) =>
      match tail b with
      | Some y => if ((192 <=? N_of_ascii a) && (N_of_ascii a <? 224))%N then Some ((N_of_ascii a - 192) * 64 + y)%N else None
      | None => None
      end
  | String a (String b (String c EmptyString)) =>
      match tail b, tail c with
      | Some y, Some w => if ((224 <=? N_of_ascii a) && (N_of_ascii a <? 240))%N then Some ((N_of_ascii a - 224) * 4096 + y * 64 + w)%N else None
      | _, _ => None
      end
  | _ => None
  end.
