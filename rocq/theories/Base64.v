(** encoding/base64 StdEncoding, which encoding/json uses for []byte
    (Gossip_Notification.Objhash, gossiper/types.go:113). *)
From Verif Require Import Bytes.
Open Scope string_scope.

Notation six := (bool * bool * bool * bool * bool * bool)%type.

(** The alphabet A-Z a-z 0-9 + /; least significant bit first. *)
Definition b64_char (x : six) : ascii :=
  let '(b0, b1, b2, b3, b4, b5) := x in
  let n := ((if b0 then 1 else 0) + (if b1 then 2 else 0) + (if b2 then 4 else 0)
            + (if b3 then 8 else 0) + (if b4 then 16 else 0) + (if b5 then 32 else 0))%N in
  (if n <? 26 then ascii_of_N (65 + n)
   else if n <? 52 then ascii_of_N (71 + n)
   else if n <? 62 then ascii_of_N (n - 4)
   else if n =? 62 then "+"%char
   else "/"%char)%N.

Definition bits6 (n : N) : six :=
  (N.testbit n 0, N.testbit n 1, N.testbit n 2, N.testbit n 3, N.testbit n 4, N.testbit n 5).

Definition b64_val (c : ascii) : option six :=
  let n := N_of_ascii c in
  (if (65 <=? n) && (n <=? 90) then Some (bits6 (n - 65))
   else if (97 <=? n) && (n <=? 122) then Some (bits6 (n - 71))
   else if (48 <=? n) && (n <=? 57) then Some (bits6 (n + 4))
   else if n =? 43 then Some (bits6 62)
   else if n =? 47 then Some (bits6 63)
   else None)%N.

(** EncodeToString: groups of three bytes, padded with =. *)
Fixpoint b64_encode (s : string) : string :=
  match s with
  | EmptyString => EmptyString
  | String (Ascii a0 a1 a2 a3 a4 a5 a6 a7) EmptyString =>
      String (b64_char (a2, a3, a4, a5, a6, a7)) (String (b64_char (false, false, false, false, a0, a1)) "==")
  | String (Ascii a0 a1 a2 a3 a4 a5 a6 a7) (String (Ascii b0 b1 b2 b3 b4 b5 b6 b7) EmptyString) =>
      String (b64_char (a2, a3, a4, a5, a6, a7)) (String (b64_char (b4, b5, b6, b7, a0, a1))
        (String (b64_char (false, false, b0, b1, b2, b3)) "="))
  | String (Ascii a0 a1 a2 a3 a4 a5 a6 a7) (String (Ascii b0 b1 b2 b3 b4 b5 b6 b7)
      (String (Ascii c0 c1 c2 c3 c4 c5 c6 c7) r)) =>
      String (b64_char (a2, a3, a4, a5, a6, a7)) (String (b64_char (b4, b5, b6, b7, a0, a1))
        (String (b64_char (c6, c7, b0, b1, b2, b3)) (String (b64_char (c0, c1, c2, c3, c4, c5)) (b64_encode r))))
  end.

(** Carriage returns and newlines are ignored when decoding. *)
Fixpoint strip_crlf (s : string) : string :=
  match s with
  | EmptyString => EmptyString
  | String c r => if Ascii.eqb c "010" || Ascii.eqb c "013" then strip_crlf r else String c (strip_crlf r)
  end.

(** Groups of four characters; padding only in the last one. *)
Fixpoint b64_groups (s : string) : option string :=
  match s with
  | EmptyString => Some EmptyString
  | String p (String q (String u (String v r))) =>
      match b64_val p, b64_val q with
      | Some (a2, a3, a4, a5, a6, a7), Some (b4, b5, b6, b7, a0, a1) =>
          if Ascii.eqb v "=" then
            if negb (is_empty r) then None
            else if Ascii.eqb u "=" then Some (String (Ascii a0 a1 a2 a3 a4 a5 a6 a7) "")
            else
              match b64_val u with
              | Some (_, _, b0, b1, b2, b3) =>
                  Some (String (Ascii a0 a1 a2 a3 a4 a5 a6 a7) (String (Ascii b0 b1 b2 b3 b4 b5 b6 b7) ""))
              | None => None
              end
          else
            match b64_val u, b64_val v with
            | Some (c6, c7, b0, b1, b2, b3), Some (c0, c1, c2, c3, c4, c5) =>
                match b64_groups r with
                | Some t => Some (String (Ascii a0 a1 a2 a3 a4 a5 a6 a7) (String (Ascii b0 b1 b2 b3 b4 b5 b6 b7)
                              (String (Ascii c0 c1 c2 c3 c4 c5 c6 c7) t)))
                | None => None
                end
            | _, _ => None
            end
      | _, _ => None
      end
  | _ => None
  end.

(** DecodeString ([None]: CorruptInputError). *)
Definition b64_decode (s : string) : option string := b64_groups (strip_crlf s).
