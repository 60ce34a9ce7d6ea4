(** crypto/certpool.go. *)
From Verif Require Import Bytes Cert.
Open Scope string_scope.

(** certpool.go:16-20, CertPool. *)
Record pool : Type := mkpool {
  p_by_ski : gmap string (list nat);
  p_by_name : gmap string (list nat);
  p_certs : list cert
}.

(** certpool.go:23-28, NewCertPool. *)
Definition new_pool : pool := mkpool ∅ ∅ [].

(** Go's m[k] on map[string][]int. *)
Definition indexes (m : gmap string (list nat)) (k : string) : list nat := default [] (m !! k).

(** certpool.go:52-65, findPotentialParents. *)
Definition potential_parents (s : pool) (c : cert) : list nat :=
  let cands := if is_empty (c_aki c) then [] else indexes (p_by_ski s) (c_aki c) in
  match cands with [] => indexes (p_by_name s) (c_issuer c) | _ => cands end.

(** certpool.go:67-80, contains. *)
Definition contains (s : pool) (c : cert) : bool :=
  existsb (λ i, match p_certs s !! i with Some d => cert_equal d c | None => false end)
          (indexes (p_by_name s) (c_subject c)).

(** append(m[k], n) stored back. *)
Definition index_add (m : gmap string (list nat)) (k : string) (n : nat) : gmap string (list nat) :=
  <[k := (indexes m k ++ [n])%list]> m.

(** certpool.go:83-103, AddCert (the panic on a nil pointer is not reachable
    from callers: all pass addresses). *)
Definition add_cert (s : pool) (c : cert) : pool :=
  if contains s c then s
  else
    let n := length (p_certs s) in
    mkpool (if is_empty (c_ski c) then p_by_ski s else index_add (p_by_ski s) (c_ski c) n)
           (index_add (p_by_name s) (c_subject c) n)
           (p_certs s ++ [c])%list.

(** certpool.go:136-142, Subjects. *)
Definition subjects (s : pool) : list string := map c_subject (p_certs s).

(** certpool.go:145-156, GetCertBySubjectKeyID; nil is None. *)
Definition get_by_ski (s : pool) (k : string) : option cert :=
  match indexes (p_by_ski s) k with [] => None | i :: _ => p_certs s !! i end.

(** certpool.go:158-172, GetLength, GetCertList, GetCerts. *)
Definition get_length (s : pool) : nat := length (p_certs s).
Definition get_certs (s : pool) : list cert := p_certs s.

(** certpool.go:175-186, UpdateCertBySubjectKeyID. *)
Definition update_by_ski (s : pool) (k : string) (c : cert) : pool :=
  match indexes (p_by_ski s) k with
  | [] => s
  | i :: _ => mkpool (p_by_ski s) (p_by_name s) (<[i := c]> (p_certs s))
  end.
