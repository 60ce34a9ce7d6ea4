(** Vocabulary for statements about files. *)
From Verif Require Import Bytes Base64 Pem Disk Cert CertPool.
Open Scope string_scope.

(** The listing of a directory contains each of its entries once. *)
Definition lists_entries (o : os) : Prop :=
  forall d p, NoDup (os_list o d p) /\ forall x, x ∈ os_list o d p <-> is_Some (d !! (p ++ [x])%list).

(** Every entry is in a directory. *)
Definition tree (d : fs) : Prop := forall p x, is_Some (d !! (p ++ [x])%list) -> d !! p = Some Folder.

(** [q] is [p] or below [p]. *)
Definition below (p q : fpath) : Prop := exists k, q = (p ++ k)%list.

(** The operating system refuses nothing at or below [p]. *)
Definition unhindered (o : os) (p : fpath) : Prop := forall q, below p q -> os_open o q = true /\ os_remove o q = true.

(** Reading what PKCS #8 encoding wrote gives the key back. *)
Definition pkcs8_ok (K : pkcs8) : Prop := forall k bs, pk_marshal K k = Some bs -> pk_parse K bs = Some (Some k).

(** A block as it stands in a file of certificates: comment lines before it, its type and its contents. *)
Record item : Type := mkitem { it_comment : option string; it_type : string; it_bytes : string }.

(** Its text; comments contain no dash, types neither dash nor colon nor newline. *)
Definition item_text (i : item) : string :=
  match it_comment i with Some c => c ++ nl | None => "" end ++ pem_encode (it_type i) (it_bytes i).

Fixpoint lacks (c : ascii) (s : string) : Prop :=
  match s with EmptyString => True | String d r => d <> c /\ lacks c r end.

Definition item_ok (i : item) : Prop :=
  match it_comment i with Some c => lacks "-" c | None => True end /\
  lacks "-" (it_type i) /\ lacks ":" (it_type i) /\ lacks "010" (it_type i).

Definition bundle (l : list item) : string := fold_right (λ i t, item_text i ++ t) "" l.

(** The certificates in a file. *)
Definition bundled (parse : string -> option cert) (l : list item) : list cert :=
  omap (λ i, if String.eqb (it_type i) "CERTIFICATE" then parse (it_bytes i) else None) l.
