(** Files and directories: util/IO.go:86-253, and the users
    gossiper/Interface.go:641-647, monitor/types.go:304-310.

    Simplifications: a path is the list of its components (a trailing or
    doubled slash makes no difference to the operating system); no links;
    nobody else changes the file system meanwhile; a read returns the whole
    file. *)
From Verif Require Import Bytes Base64 Pem.
Open Scope string_scope.

Notation fpath := (list string).

Inductive entry := File (content : string) | Folder.

Global Instance entry_eq_dec : EqDecision entry.
Proof. solve_decision. Defined.

Notation fs := (gmap (list string) entry).

(** What the operating system decides: whether a file may be created or opened for writing, whether a directory may be opened and
    listed, whether an entry may be removed, and in which order a directory is listed. *)
Record os : Type := mkos {
  os_create : fpath -> bool;
  os_open : fpath -> bool;
  os_remove : fpath -> bool;
  os_list : fs -> fpath -> list string
}.

(** The directory that [p] is in; [None] for the root. *)
Definition parent (p : fpath) : option fpath :=
  match rev p with [] => None | _ :: r => Some (rev r) end.

(** os.Create, and os.OpenFile with O_WRONLY|O_CREATE|O_TRUNC: the file is
    empty afterwards. *)
Definition create (o : os) (d : fs) (p : fpath) : option fs :=
  match d !! p, parent p with
  | Some Folder, _ | _, None => None
  | _, Some q =>
      if bool_decide (d !! q = Some Folder) && os_create o p then Some (<[p := File ""]> d) else None
  end.

(** The file [p] after [k] characters of [t] have been written to it. *)
Definition written (d : fs) (p : fpath) (t : string) (k : nat) : fs := <[p := File (substring 0 k t)]> d.

(** pem.Encode to a created file, complete. *)
Definition write_all (d : fs) (p : fpath) (t : string) : fs := written d p t (len t).

(** os.Open, Stat and Read of a file. *)
Definition read_file (d : fs) (p : fpath) : option string :=
  match d !! p with Some (File t) => Some t | _ => None end.

(** IO.go:139-153, SaveCertificateToDisk; [false]: log.Fatalf. *)
Definition save_certificate (o : os) (d : fs) (bs : string) (p : fpath) : fs * bool :=
  match create o d p with
  | None => (d, false)
  | Some d => (write_all d p (pem_encode "CERTIFICATE" bs), true)
  end.

(** IO.go:194-218, ReadCertificateFromDisk. *)
Definition read_certificate (d : fs) (p : fpath) : option string :=
  match read_file d p with
  | None => None
  | Some t => match pem_decode t with Some (b, _) => Some (pb_bytes b) | None => None end
  end.

(** x509.MarshalPKCS8PrivateKey of an RSA key and x509.ParsePKCS8PrivateKey ([Some None]: a key of another kind). *)
Record pkcs8 : Type := mkpkcs8 {
  pk_key : Type;
  pk_marshal : pk_key -> option string;
  pk_parse : string -> option (option pk_key)
}.

(** IO.go:155-174, SaveKeyToDisk: the file is opened, and thereby emptied,
    before the key is encoded. *)
Definition save_key (K : pkcs8) (o : os) (d : fs) (k : pk_key K) (p : fpath) : fs * bool :=
  match create o d p with
  | None => (d, false)
  | Some d =>
      match pk_marshal K k with
      | None => (d, false)
      | Some bs => (write_all d p (pem_encode "PRIVATE KEY" bs), true)
      end
  end.

(** IO.go:220-253, ReadKeyFromDisk. *)
Definition read_key (K : pkcs8) (d : fs) (p : fpath) : option (pk_key K) :=
  match read_file d p with
  | None => None
  | Some t =>
      match pem_decode t with
      | None => None
      | Some (b, _) => match pk_parse K (pb_bytes b) with Some (Some k) => Some k | _ => None end
      end
  end.

(** The states of the file system during SaveCertificateToDisk, after each
    character. *)
Definition saving (o : os) (d : fs) (t : string) (p : fpath) : list fs :=
  match create o d p with
  | None => [d]
  | Some d1 => d :: map (written d1 p t) (seq 0 (S (len t)))
  end.

(** os.Remove: files and empty directories. *)
Definition remove (o : os) (d : fs) (p : fpath) : option fs :=
  match d !! p with
  | None => None
  | Some e =>
      if os_remove o p && match e with Folder => bool_decide (os_list o d p = []) | _ => true end
      then Some (delete p d) else None
  end.

Definition is_folder (d : fs) (p : fpath) : bool := bool_decide (d !! p = Some Folder).

(** IO.go:86-124, DeleteFilesAndDirectories; [true]: nil is returned.  [fuel]
    bounds the depth of the recursion. *)
Section delete.
Context (o : os).

(** The loop over the entries [l] of the directory [p], listed when the file
    system was [d0]; [rec] is the recursive call. *)
Fixpoint delete_entries (rec : fs -> fpath -> fs * bool) (d0 d : fs) (p : fpath) (l : list string) : fs * bool :=
  match l with
  | [] => (d, true)
  | x :: l =>
      let q := (p ++ [x])%list in
      let r := if is_folder d0 q then rec d q
               else match remove o d q with Some d => (d, true) | None => (d, false) end in
      if snd r then delete_entries rec d0 (fst r) p l else r
  end.

Fixpoint delete_rec (fuel : nat) (d : fs) (p : fpath) : fs * bool :=
  match fuel with
  | 0 => (d, false)
  | S n =>
      if is_folder d p && os_open o p then
        let r := delete_entries (delete_rec n) d d p (os_list o d p) in
        if snd r then match remove o (fst r) p with Some d => (d, true) | None => (fst r, false) end
        else r
      else (d, false)
  end.

(** A tree is not deeper than the number of its entries.  This is also what
    CleanUpGossiperStorage and CleanUpMonitorStorage do to the storage directory
    (gossiper/Interface.go:641-647, monitor/types.go:304-310; an error is printed). *)
Definition delete_tree (d : fs) (p : fpath) : fs * bool := delete_rec (S (size d)) d p.
End delete.
