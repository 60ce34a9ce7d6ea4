(** crypto/certpool.go:111-132. *)
From Verif Require Import Bytes Base64 Pem Cert CertPool.
Open Scope string_scope.

(** AppendCertsFromPEM; [parse] is x509.ParseCertificate.  Every round
    consumes a block, so the length bounds their number. *)
Section append.
Context (parse : string -> option cert).

Fixpoint append_rec (fuel : nat) (s : pool) (ok : bool) (t : string) : pool * bool :=
  match fuel with
  | 0 => (s, ok)
  | S n =>
      if is_empty t then (s, ok)
      else
        match pem_decode t with
        | None => (s, ok)
        | Some (b, t) =>
            if negb (String.eqb (pb_type b) "CERTIFICATE") || pb_headers b then append_rec n s ok t
            else
              match parse (pb_bytes b) with
              | None => append_rec n s ok t
              | Some c => append_rec n (add_cert s c) true t
              end
        end
  end.

Definition append_pem (s : pool) (t : string) : pool * bool := append_rec (S (len t)) s false t.
End append.
