(** JSON files and what is in them while they are written: util/IO.go:18-84
    and 126-137; the databases of a client, client/types.go:45-135; the updates of a
    monitor, monitor/types.go:114-132 and monitor/client-update-monitor.go:29-56.

    Simplifications: those of Disk.v (no links, nobody else changes the
    file system); MarshalIndent does not fail on the data in question. *)
From Verif Require Import Bytes Base64 Json Types Crypto Bitset CryptoIO Disk Monitor Client.
Open Scope string_scope.

(** IO.go:18-33, ReadByte. *)
Definition read_byte (o : os) (d : fs) (p : fpath) : option string := if os_open o p then read_file d p else None.

(** os.WriteFile: the file is emptied, and then the text is written; the states of the file system after each character.
    Nothing happens if the file may not be written. *)
Definition rewriting (o : os) (d : fs) (p : fpath) (t : string) : list fs :=
  match create o d p with
  | None => []
  | Some d1 => map (written d1 p t) (seq 0 (S (len t)))
  end.

(** IO.go:35-58, WriteData of a value with the text [t]: the states of the file
    system from the call to the return.  The file is opened first (a directory can be opened, too), and created
    if it does not exist. *)
Definition writing (o : os) (d : fs) (p : fpath) (t : string) : list fs :=
  match d !! p with
  | Some _ => d :: (if os_open o p then rewriting o d p t else [])
  | None =>
      match create o d p with
      | None => [d]
      | Some d1 => d :: d1 :: rewriting o d1 p t
      end
  end.

(** The state in which a list of states ends. *)
Definition final (d : fs) (l : list fs) : fs := List.last l d.

(** IO.go:60-72, CreateFile. *)
Definition create_file (o : os) (d : fs) (p : fpath) : fs :=
  match d !! p with Some _ => d | None => default d (create o d p) end.

(** os.Mkdir. *)
Definition mkdir (o : os) (d : fs) (p : fpath) : option fs :=
  match d !! p, parent p with
  | None, Some q => if bool_decide (d !! q = Some Folder) && os_create o p then Some (<[p := Folder]> d) else None
  | _, _ => None
  end.

(** os.MkdirAll: from directory [p] on, the states of the file system. *)
Fixpoint mkdirs (o : os) (d : fs) (p : fpath) (rest : list string) : list fs :=
  match rest with
  | [] => [d]
  | x :: r =>
      let p := (p ++ [x])%list in
      match d !! p with
      | Some Folder => mkdirs o d p r
      | Some (File _) => [d]
      | None => match mkdir o d p with None => [d] | Some d1 => d :: mkdirs o d1 p r end
      end
  end.

(** IO.go:74-84, CreateDir. *)
Definition create_dir (o : os) (d : fs) (p : fpath) : list fs :=
  match d !! p with Some _ => [d] | None => mkdirs o d [] p end.

(** IO.go:126-137, LoadConfiguration: the JSON value that is decoded; [None]: log.Fatal. *)
Definition load_configuration (o : os) (d : fs) (p : fpath) : option json :=
  match read_byte o d p with Some t => parse_json t | None => None end.

(* ---------------------------------------------------------------- *)
(** * Clients *)

(** client/types.go:24-26: where the databases are kept. *)
Record cfiles : Type := mkcfiles { f_sth : fpath; f_crv : fpath; f_pom : fpath }.

(** client/types.go:45-59: the values saved, for a list of the entries of the database ([encoding/json] sorts them by key). *)
Definition sth_json (l : list (string * string)) : json := JObj (map (λ kv, (fst kv, JStr (snd kv))) l).
Definition crv_json (l : list (string * bitset)) : json := JObj (map (λ kv, (fst kv, JStr (b64_encode (bs_marshal (snd kv))))) l).
Definition pom_json (l : list (string * gobj)) : json := JObj (map (λ kv, (fst kv, gobj_json (snd kv))) l).

(** client/types.go:45-59: SaveSTHDatabase, SaveCRVDatabase and SavePomDatabase one after the other. *)
Definition saving_all (o : os) (d : fs) (F : cfiles) (ls : list (string * string)) (lc : list (string * bitset)) (lp : list (string * gobj)) : list fs :=
  let s1 := writing o d (f_sth F) (write_data (sth_json ls)) in
  let d1 := final d s1 in
  let s2 := writing o d1 (f_crv F) (write_data (crv_json lc)) in
  let d2 := final d1 s2 in
  (s1 ++ s2 ++ writing o d2 (f_pom F) (write_data (pom_json lp)))%list.

(** client/types.go:115-135, InitializeClientContext of a client that is not new; [None]: log.Fatal. *)
Definition client_start (o : os) (d : fs) (F : cfiles) : option clst :=
  client_init "" (read_byte o d (f_sth F)) (read_byte o d (f_crv F)).

(* ---------------------------------------------------------------- *)
(** * Monitors *)

(** monitor/types.go:117-119: the file of an update. *)
Definition update_path (dir : fpath) (period : string) : fpath := (dir ++ [("Period_" ++ period)%string; "ClientUpdate.json"])%list.

(** monitor/types.go:299-302, InitializeMonitorStorage: the file of revocation vectors. *)
Definition crv_path (dir : fpath) : fpath := (dir ++ ["CRV.json"])%list.

(** monitor/types.go:114-132, SaveStorage; [vs] is the text of the revocation vectors. *)
Definition saving_storage (o : os) (d : fs) (dir : fpath) (period : string) (u : update) (vs : string) : list fs :=
  let s1 := create_dir o d (dir ++ [("Period_" ++ period)%string])%list in
  let d1 := final d s1 in
  let d2 := create_file o d1 (update_path dir period) in
  let s3 := writing o d2 (update_path dir period) (write_data (update_json u)) in
  (s1 ++ s3 ++ writing o (final d2 s3) (crv_path dir) vs)%list.

(** The components of a path. *)
Fixpoint components (s : string) : list string :=
  match s with
  | "" => [""]
  | String c r =>
      if Ascii.eqb c "/" then "" :: components r
      else match components r with x :: l => String c x :: l | [] => [] end
  end.

(** How the operating system resolves a path, starting from directory [p]. *)
Fixpoint resolve (d : fs) (p : fpath) (cs : list string) : option fpath :=
  match cs with
  | [] => Some p
  | x :: r =>
      if bool_decide (d !! p = Some Folder) then
        resolve d (if String.eqb x "" || String.eqb x "." then p
                   else if String.eqb x ".." then default [] (parent p) else (p ++ [x])%list) r
      else None
  end.

(** monitor/client-update-monitor.go:29-56, PrepareClientUpdate and requestupdate, with the string from the body of the request.
    [None]: the nil update is dereferenced, and the request fails. *)
Definition answer_update (o : os) (d : fs) (dir : fpath) (period : string) : option string :=
  match resolve d dir (components ("Period_" ++ period ++ "/ClientUpdate.json")) with
  | None => None
  | Some p => match read_byte o d p with Some t => served <$> update_unmarshal t | None => None end
  end.

(* ---------------------------------------------------------------- *)
(** * Crypto configurations *)

(** crypto/crypto_IO.go:81-101, ReadCryptoConfig and ReadVerifyOnlyCryptoConfig: the configuration and whether the error is nil.
    [None]: the file cannot be read, which is an error. *)
Definition load_cconf {P : prims} (K : keyio P) (o : os) (d : fs) (p : fpath) : option (cconf P * bool) := read_cconf K <$> read_byte o d p.
Definition load_verify_only {P : prims} (K : keyio P) (o : os) (d : fs) (p : fpath) : option (cconf P * bool) :=
  read_verify_only K <$> read_byte o d p.
