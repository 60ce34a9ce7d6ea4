(** Vocabulary for statements about JSON files. *)
From Verif Require Import Bytes Json Types Crypto Bitset Revocation Disk SpecDisk Monitor Client SpecClient JsonFile.
Open Scope string_scope.

(** [l] lists the entries of the table [m], in whatever order. *)
Definition lists {A} (m : gmap string A) (l : list (string * A)) : Prop := l ≡ₚ map_to_list m.

(** The operating system lets a process read and write the file [p], which is not a directory but is in one. *)
Definition may_write (o : os) (d : fs) (p : fpath) : Prop :=
  os_create o p = true /\ os_open o p = true /\ d !! p <> Some Folder /\ exists q x, p = (q ++ [x])%list /\ d !! q = Some Folder.

(** The three databases are kept in different files. *)
Definition distinct (F : cfiles) : Prop := f_sth F <> f_crv F /\ f_crv F <> f_pom F /\ f_sth F <> f_pom F.

(** A step that writes [p] touches no other file. *)
Definition only_changes (p : fpath) (d d' : fs) : Prop := forall q, q <> p -> d' !! q = d !! q.

(** Objects and arrays: the values kept in files. *)
Definition structured (v : json) : Prop := match v with JObj _ | JArr _ => True | _ => False end.

(** A way in which nothing is refused: [dir], where the updates go, is a directory, the directory of the period exists or
    can be made, and the file of the update can be written. *)
Definition update_writable (o : os) (d : fs) (dir : fpath) (period : string) : Prop :=
  d !! dir = Some Folder /\ os_create o (dir ++ [("Period_" ++ period)%string])%list = true /\
  (forall t, d !! (dir ++ [("Period_" ++ period)%string])%list <> Some (File t)) /\
  os_create o (update_path dir period) = true /\ os_open o (update_path dir period) = true /\ d !! update_path dir period <> Some Folder.

(** What may become of a client and the file system, with files [F]: it is started for the first time (whatever files there are), it
    handles updates, it saves its databases, and it is interrupted at any time while it saves (the first such time being before anything
    is written) and started again. *)
Inductive life {P : prims} (z : gzip) (c : cconf P) (o : os) (F : cfiles) : clst -> fs -> Prop :=
| life_new d : life z c o F fresh_client d
| life_update s d flag u s' r : life z c o F s d -> handle_update z c s flag u = (s', r) -> r <> Died -> life z c o F s' d
| life_save s d ls lc lp : life z c o F s d -> lists (cl_sth s) ls -> lists (cl_crv s) lc -> lists (cl_pom s) lp ->
    life z c o F s (final d (saving_all o d F ls lc lp))
| life_interrupted s d ls lc lp d' s' : life z c o F s d -> lists (cl_sth s) ls -> lists (cl_crv s) lc -> lists (cl_pom s) lp ->
    d' ∈ saving_all o d F ls lc lp -> client_start o d' F = Some s' -> life z c o F s' d'.

(** The same, starting without files, and with the updates handled so far and whether they were to be verified. *)
Inductive story {P : prims} (z : gzip) (c : cconf P) (o : os) (F : cfiles) : list (bool * update) -> clst -> fs -> Prop :=
| story_new d : d !! f_sth F = None -> d !! f_crv F = None -> story z c o F [] fresh_client d
| story_update l s d flag u s' r : story z c o F l s d -> handle_update z c s flag u = (s', r) -> r <> Died -> story z c o F ((flag, u) :: l) s' d
| story_save l s d ls lc lp : story z c o F l s d -> lists (cl_sth s) ls -> lists (cl_crv s) lc -> lists (cl_pom s) lp ->
    story z c o F l s (final d (saving_all o d F ls lc lp))
| story_interrupted l s d ls lc lp d' s' : story z c o F l s d -> lists (cl_sth s) ls -> lists (cl_crv s) lc -> lists (cl_pom s) lp ->
    d' ∈ saving_all o d F ls lc lp -> client_start o d' F = Some s' -> story z c o F l s' d'.
