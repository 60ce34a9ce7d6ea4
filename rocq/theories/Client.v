(** client/client.go, client/types.go and client/parser.go. *)
From Verif Require Import Bytes Hex Base64 Json Types Crypto Verify Merkle Cert CTngExt Bitset Revocation Monitor.
Open Scope string_scope.

(** hex.DecodeString whose error is ignored: the bytes decoded before the error. *)
Fixpoint hex_prefix (s : string) : string :=
  match s with
  | String h (String l r) =>
      match hex_val h, hex_val l with
      | Some (b4, b5, b6, b7), Some (b0, b1, b2, b3) => String (Ascii b0 b1 b2 b3 b4 b5 b6 b7) (hex_prefix r)
      | _, _ => ""
      end
  | _ => ""
  end.

(** client/types.go:28-43, ClientContext: the databases, and for each of the three
    mutexes whether it is held by a call that has returned. *)
Record clst : Type := mkcl {
  cl_sth : gmap string string;
  cl_crv : gmap string bitset;
  cl_pom : gmap string gobj;
  cl_crv_lock : bool;
  cl_sth_lock : bool;
  cl_pom_lock : bool
}.

(** What a call of HandleUpdate does: returns true, returns false, waits for a mutex for ever, or
    panics. *)
Inductive outcome := Applied | Refused | Stuck | Died.

(** client/client.go:174 and 236: the key of the tree heads. *)
Definition sth_key (g : gobj) : string := g_p0 g ++ "@" ++ g_period g.

(** client/client.go:166-173 and 229-231. *)
Definition head_of (g : gobj) : option sth := sth_unmarshal (hex_prefix (g_p1 g)).

Section client.
Context {P : prims} (z : gzip) (c : cconf P).

(** The condition [if verify] of each loop. *)
Definition checked (flag : bool) (g : gobj) : verdict := if flag then verify c g else Accept.

(** client/client.go:132-155.  Of the set that Union returns nothing is kept. *)
Fixpoint take_revs (flag : bool) (m : gmap string bitset) (l : list gobj) : gmap string bitset * verdict :=
  match l with
  | [] => (m, Accept)
  | g :: r =>
      match checked flag g with
      | Accept =>
          let '(srh, d) := srh_and_dcrv z g in
          match verify_srh c srh d (m !! g_p0 g) (g_period g) with
          | Accept => take_revs flag (match m !! g_p0 g with None => <[g_p0 g := d]> m | Some _ => m end) r
          | v => (m, v)
          end
      | v => (m, v)
      end
  end.

(** client/client.go:158-179. *)
Fixpoint take_sths (flag : bool) (m : gmap string string) (l : list gobj) : gmap string string * verdict :=
  match l with
  | [] => (m, Accept)
  | g :: r =>
      match checked flag g with
      | Accept =>
          match head_of g with
          | None => (m, Reject)
          | Some x => take_sths flag (<[sth_key g := sth_root x]> m) r
          end
      | v => (m, v)
      end
  end.

(** client/client.go:182-193, and again 194-205. *)
Fixpoint take_poms (flag : bool) (m : gmap string gobj) (l : list gobj) : gmap string gobj * verdict :=
  match l with
  | [] => (m, Accept)
  | g :: r =>
      match checked flag g with
      | Accept => take_poms flag (<[g_p0 g := g]> m) r
      | v => (m, v)
      end
  end.

Definition refusal (v : verdict) : outcome := match v with Accept => Applied | Reject => Refused | Panics => Died end.

(** client/client.go:130-208, HandleUpdate.  A return inside a loop leaves the mutex
    locked.  The argument newmonitor is not used by the code. *)
Definition handle_update (s : clst) (flag : bool) (u : update) : clst * outcome :=
  if cl_crv_lock s then (s, Stuck)
  else
    let '(crv, v) := take_revs flag (cl_crv s) (u_revs u) in
    match v with
    | Accept =>
        if cl_sth_lock s then (mkcl (cl_sth s) crv (cl_pom s) false true (cl_pom_lock s), Stuck)
        else
          let '(sth, v) := take_sths flag (cl_sth s) (u_sths u) in
          match v with
          | Accept =>
              if cl_pom_lock s then (mkcl sth crv (cl_pom s) false false true, Stuck)
              else
                let '(pom, v) := take_poms flag (cl_pom s) (u_accs u ++ u_cons u) in
                match v with
                | Accept => (mkcl sth crv pom false false false, Applied)
                | v => (mkcl sth crv pom false false true, refusal v)
                end
          | v => (mkcl sth crv (cl_pom s) false true (cl_pom_lock s), refusal v)
          end
    | v => (mkcl (cl_sth s) crv (cl_pom s) true (cl_sth_lock s) (cl_pom_lock s), refusal v)
    end.

(** client/client.go:218-255, one round of the loop: is the logger counted as faulty?  [None]: panic. *)
Definition logger_faulty (s : clst) (crt : cert) (i : loginfo) : option bool :=
  let g := li_sth i in
  match cl_pom s !! g_signer g with
  | Some _ => Some true
  | None =>
      match verify c g with
      | Panics => None
      | Reject => Some true
      | Accept =>
          match head_of g with
          | None => Some true
          | Some x =>
              let root := map_get (cl_sth s) (sth_key g) in
              if negb (String.eqb root (sth_root x)) then Some true
              else Some (negb (verify_proof (h_sha256 P) (c_subject (tbs_certificate crt)) (poi_proof (li_poi i)) (hex_prefix root)))
          end
      end
  end.

Fixpoint count_faulty (s : clst) (crt : cert) (l : list loginfo) : option nat :=
  match l with
  | [] => Some 0
  | i :: r =>
      match logger_faulty s crt i with
      | None => None
      | Some b => match count_faulty s crt r with None => None | Some n => Some (if b then S n else n) end
      end
  end.

(** client/client.go:210-273, VerifyCTngextension.  Test on the nil vector of an unknown issuer
    panics. *)
Definition check_certificate (s : clst) (crt : cert) : verdict :=
  let l := x_infos (parse_ctng crt) in
  match count_faulty s crt l with
  | None => Panics
  | Some n =>
      if Nat.eqb n (length l) then Reject
      else match cl_crv s !! c_issuer_cn crt with
           | None => Panics
           | Some v => if bs_test v (to_uint (cert_rid crt)) then Reject else Accept
           end
  end.

(** ** Files *)

(** client/types.go:45-59, SaveSTHDatabase, SaveCRVDatabase, SavePomDatabase: the text of the files.  (White space of MarshalIndent is
    not modelled; Go sorts the keys, here they come in the order of the table.) *)
Definition save_sth (s : clst) : string :=
  print_json (JObj (map (λ kv, (fst kv, JStr (snd kv))) (map_to_list (cl_sth s)))).
Definition save_crv (s : clst) : string :=
  print_json (JObj (map (λ kv, (fst kv, JStr (b64_encode (bs_marshal (snd kv))))) (map_to_list (cl_crv s)))).
Definition save_pom (s : clst) : string :=
  print_json (JObj (map (λ kv, (fst kv, gobj_json (snd kv))) (map_to_list (cl_pom s)))).

(** client/types.go:61-71, LoadSTHDatabase: errors of Unmarshal are ignored; of a value of the wrong type
    the zero value is kept. *)
Definition load_sth (file : option string) : gmap string string :=
  match file with
  | None => ∅
  | Some t =>
      match parse_json t with
      | Some (JObj l) => fold_left (λ m kv, <[fst kv := tol_string "" (snd kv)]> m) l ∅
      | _ => ∅
      end
  end.

(** client/types.go:73-89, LoadCRVDatabase; [None]: log.Fatal. *)
Fixpoint read_crvs (m : gmap string bitset) (l : list (string * json)) : option (gmap string bitset) :=
  match l with
  | [] => Some m
  | (k, v) :: r =>
      match (match v with JStr t => b64_decode t | JNull => Some "" | _ => None end) with
      | None => None
      | Some b => read_crvs (<[k := default bs_zero (bs_unmarshal b)]> m) r
      end
  end.
Definition load_crv (file : option string) : option (gmap string bitset) :=
  match file with
  | None => Some ∅
  | Some t =>
      match parse_json t with
      | Some (JObj l) => read_crvs ∅ l
      | Some JNull => Some ∅
      | _ => None
      end
  end.

(** client/types.go:91-101, LoadPoMdatabase (called nowhere); errors are ignored. *)
Definition load_pom (file : option string) : gmap string gobj :=
  match file with
  | None => ∅
  | Some t =>
      match parse_json t with
      | Some (JObj l) => fold_left (λ m kv, <[fst kv := tol_struct gobj_tol zero_obj (snd kv)]> m) l ∅
      | _ => ∅
      end
  end.

(** client/types.go:115-135, InitializeClientContext, with the two files it reads; [None]: log.Fatal. *)
Definition client_init (status : string) (sth_file crv_file : option string) : option clst :=
  if String.eqb status "NEW" then Some (mkcl ∅ ∅ ∅ false false false)
  else match load_crv crv_file with
       | None => None
       | Some crv => Some (mkcl (load_sth sth_file) crv ∅ false false false)
       end.

(** What happens to a client: an update is handled, the databases are saved, the
    program is started again on the saved files. *)
Inductive clevent := KUpdate (flag : bool) (u : update) | KSave | KRestart.

(** A client and the three files it may have saved. *)
Record clsys : Type := mkclsys { cs_cl : clst; cs_sth_file : option string; cs_crv_file : option string; cs_pom_file : option string }.
Definition clsys_new : clsys := mkclsys (mkcl ∅ ∅ ∅ false false false) None None None.

(** [None]: the process died.  A call that blocks for ever leaves the other goroutines, hence the
    saving functions, running. *)
Definition cl_step (y : clsys) (e : clevent) : option (clsys * outcome) :=
  match e with
  | KUpdate flag u =>
      match handle_update (cs_cl y) flag u with
      | (_, Died) => None
      | (s, o) => Some (mkclsys s (cs_sth_file y) (cs_crv_file y) (cs_pom_file y), o)
      end
  | KSave => Some (mkclsys (cs_cl y) (Some (save_sth (cs_cl y))) (Some (save_crv (cs_cl y))) (Some (save_pom (cs_cl y))), Applied)
  | KRestart =>
      match client_init "" (cs_sth_file y) (cs_crv_file y) with
      | None => None
      | Some s => Some (mkclsys s (cs_sth_file y) (cs_crv_file y) (cs_pom_file y), Applied)
      end
  end.

Fixpoint cl_run (y : clsys) (l : list clevent) : option (clsys * list outcome) :=
  match l with
  | [] => Some (y, [])
  | e :: r =>
      match cl_step y e with
      | None => None
      | Some (y1, o) => match cl_run y1 r with None => None | Some (y2, os) => Some (y2, o :: os) end
      end
  end.
End client.

(** client/parser.go:31-51, GetRootHash: the second payload is read as JSON, which stops at the first object
    that does not parse; a member RootHash that is not a string panics ([None]).  (Go unmarshals into a
    map: the last of several equal keys counts.) *)
Definition root_member (l : list (string * json)) : option string :=
  match List.find (λ kv, String.eqb (fst kv) "RootHash") (rev l) with Some (_, JStr s) => Some s | _ => None end.
Fixpoint get_root_hash (l : list gobj) : option (list string) :=
  match l with
  | [] => Some []
  | g :: r =>
      match parse_json (g_p1 g) with
      | Some (JObj m) => x ← root_member m; xs ← get_root_hash r; Some (x :: xs)
      | Some JNull => None
      | _ => Some []
      end
  end.
