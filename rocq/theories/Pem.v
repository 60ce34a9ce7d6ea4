(** encoding/pem (Go 1.19) as used by util/IO.go:139-253 and
    crypto/certpool.go:111-132.  The Go library is not in /repo; the
    definitions here follow its source, statement by statement. *)
From Verif Require Import Bytes Base64.
Open Scope string_scope.

Definition nl : string := String "010" "".

(** bytes.HasPrefix, with what follows the prefix. *)
Fixpoint strip_prefix (p s : string) : option string :=
  match p, s with
  | EmptyString, _ => Some s
  | String a p', String b s' => if Ascii.eqb a b then strip_prefix p' s' else None
  | String _ _, EmptyString => None
  end.

(** bytes.Cut: what is before and after the first occurrence of [sep]. *)
Fixpoint cut (sep s : string) : option (string * string) :=
  match strip_prefix sep s with
  | Some r => Some ("", r)
  | None =>
      match s with
      | EmptyString => None
      | String c r => match cut sep r with Some (a, b) => Some (String c a, b) | None => None end
      end
  end.

(** bytes.TrimRight(s, " \t"). *)
Fixpoint trim_right (s : string) : string :=
  match s with
  | EmptyString => EmptyString
  | String c r =>
      match trim_right r with
      | EmptyString => if Ascii.eqb c " " || Ascii.eqb c "009" then EmptyString else String c EmptyString
      | r' => String c r'
      end
  end.

(** A carriage return at the end is dropped. *)
Fixpoint drop_cr (s : string) : string :=
  match s with
  | EmptyString => EmptyString
  | String c EmptyString => if Ascii.eqb c "013" then EmptyString else s
  | String c r => String c (drop_cr r)
  end.

(** getLine. *)
Definition get_line (s : string) : string * string :=
  match cut nl s with
  | Some (a, r) => (trim_right (drop_cr a), r)
  | None => (trim_right s, "")
  end.

(** removeSpacesAndTabs. *)
Fixpoint strip_blanks (s : string) : string :=
  match s with
  | EmptyString => EmptyString
  | String c r => if Ascii.eqb c " " || Ascii.eqb c "009" then strip_blanks r else String c (strip_blanks r)
  end.

(** bytes.HasSuffix(s, p), with what precedes the suffix. *)
Fixpoint strip_suffix (p s : string) : option string :=
  if String.eqb p s then Some ""
  else match s with
       | EmptyString => None
       | String c r => match strip_suffix p r with Some a => Some (String c a) | None => None end
       end.

(** pem.Block.  Of the headers only their presence is modelled: nothing in
    /repo looks at their contents. *)
Record block : Type := mkblock { pb_type : string; pb_headers : bool; pb_bytes : string }.

Definition pem_start : string := "-----BEGIN ".
Definition pem_end : string := "-----END ".
Definition dashes : string := "-----".

(** The loop over header lines; [None]: the data ended (Decode returns nil). *)
Fixpoint skip_headers (fuel : nat) (rest : string) (seen : bool) : option (bool * string) :=
  match fuel with
  | 0 => None
  | S n =>
      if is_empty rest then None
      else
        let (line, next) := get_line rest in
        match cut ":" line with
        | Some _ => skip_headers n next true
        | None => Some (seen, rest)
        end
  end.

(** Split at the END line: the base64 text, and what follows [pem_end].
    Without headers the END line may come immediately. *)
Definition split_end (seen : bool) (rest : string) : option (string * string) :=
  match (if seen then None else strip_prefix pem_end rest) with
  | Some r => Some ("", r)
  | None => cut (nl ++ pem_end) rest
  end.

(** One round of Decode's loop behind a BEGIN marker: [Retry]: [continue] with
    that rest. *)
Inductive attempt := Found (b : block) (rest : string) | Retry (rest : string) | Stop.

Definition try_block (rest : string) : attempt :=
  let (line, rest) := get_line rest in
  match strip_suffix dashes line with
  | None => Retry rest
  | Some ty =>
      match skip_headers (S (len rest)) rest false with
      | None => Stop
      | Some (seen, rest) =>
          match split_end seen rest with
          | None => Retry rest
          | Some (body, trailer) =>
              match strip_prefix (ty ++ dashes) trailer with
              | None => Retry rest
              | Some eol =>
                  if negb (is_empty (fst (get_line eol))) then Retry rest
                  else
                    match b64_decode (strip_blanks body) with
                    | None => Retry rest
                    | Some bs => Found (mkblock ty seen bs) (snd (get_line trailer))
                    end
              end
          end
      end
  end.

(** pem.Decode; every round consumes at least a BEGIN marker. *)
Fixpoint pem_loop (fuel : nat) (rest : string) : option (block * string) :=
  match fuel with
  | 0 => None
  | S n =>
      match (match strip_prefix pem_start rest with
             | Some r => Some r
             | None => match cut (nl ++ pem_start) rest with Some (_, r) => Some r | None => None end
             end) with
      | None => None
      | Some r =>
          match try_block r with
          | Found b r => Some (b, r)
          | Retry r => pem_loop n r
          | Stop => None
          end
      end
  end.

Definition pem_decode (s : string) : option (block * string) := pem_loop (S (len s)) s.

(** lineBreaker: lines of 64 characters, each ended by a newline; [k]: room in
    the current line. *)
Fixpoint break_lines (k : nat) (s : string) : string :=
  match s with
  | EmptyString => if Nat.eqb k 64 then "" else nl
  | String c r =>
      match k with
      | 1 => String c (nl ++ break_lines 64 r)
      | _ => String c (break_lines (Nat.pred k) r)
      end
  end.

(** pem.Encode of a block without headers. *)
Definition pem_encode (ty bs : string) : string :=
  pem_start ++ ty ++ dashes ++ nl ++ break_lines 64 (b64_encode bs) ++ pem_end ++ ty ++ dashes ++ nl.
