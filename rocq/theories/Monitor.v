(** monitor/*.go. *)
From Verif Require Import Bytes Hex Base64 Json Types Crypto Verify Bitset CTngExt Revocation Clock.
Open Scope string_scope.

(** monitor/client-update-monitor.go:18-27, ClientUpdate. *)
Record update : Type := mkupd {
  u_sths : list gobj;
  u_revs : list gobj;
  u_cons : list gobj;
  u_accs : list gobj;
  u_monitor : string;
  u_period : string
}.
Definition zero_update : update := mkupd [] [] [] [] "" "".

(** json.Marshal(ClientUpdate): no tags, so the Go field names.  The lists made
    by GenerateUpdate are never nil.  (util/IO.go:49, MarshalIndent, adds
    white space between the tokens, which reading skips: not modelled.) *)
Definition update_json (u : update) : json :=
  JObj [("STHs", JArr (map gobj_json (u_sths u))); ("REVs", JArr (map gobj_json (u_revs u)));
        ("POM_CONs", JArr (map gobj_json (u_cons u))); ("POM_ACCs", JArr (map gobj_json (u_accs u)));
        ("MonitorID", JStr (u_monitor u)); ("Period", JStr (u_period u))].
Definition update_marshal (u : update) : string := print_json (update_json u).

(** json.Unmarshal into []Gossip_object; null elements are zero objects. *)
Definition dec_obj (v : json) : option gobj :=
  match v with JObj l => gobj_fields zero_obj l | JNull => Some zero_obj | _ => None end.
Definition dec_objs (old : list gobj) (v : json) : option (list gobj) :=
  match v with JArr l => mapM dec_obj l | JNull => Some [] | _ => None end.

Definition update_field (u : update) (kv : string * json) : option update :=
  let '(k, v) := kv in
  let k := lower_str k in
  let '(mkupd a b c d e f) := u in
  if String.eqb k "sths" then x ← dec_objs a v; Some (mkupd x b c d e f)
  else if String.eqb k "revs" then x ← dec_objs b v; Some (mkupd a x c d e f)
  else if String.eqb k "pom_cons" then x ← dec_objs c v; Some (mkupd a b x d e f)
  else if String.eqb k "pom_accs" then x ← dec_objs d v; Some (mkupd a b c x e f)
  else if String.eqb k "monitorid" then x ← dec_string e v; Some (mkupd a b c d x f)
  else if String.eqb k "period" then x ← dec_string f v; Some (mkupd a b c d e x)
  else Some u.

Fixpoint update_fields (u : update) (l : list (string * json)) : option update :=
  match l with
  | [] => Some u
  | kv :: r => match update_field u kv with Some u' => update_fields u' r | None => None end
  end.

(** json.Unmarshal(bytes, &ClientUpdate{}): monitor/client-update-monitor.go:29-41, PrepareClientUpdate on the text of
    the file; client/client.go:30-32, FetchClientUpdate on the body of the answer;
    client/types.go:102-113, LoadUpdate. *)
Definition update_unmarshal (s : string) : option update :=
  match parse_json s with
  | Some (JObj l) => update_fields zero_update l
  | Some JNull => Some zero_update
  | _ => None
  end.

(** monitor/client-update-monitor.go:53-54, the body requestupdate writes: the
    marshalled bytes are encoded once more, as a []byte, followed by a newline. *)
Definition served (u : update) : string := print_json (JStr (b64_encode (update_marshal u))) ++ String "010" "".

Section monitor.
Context {P : prims} (z : gzip).

(** monitor/types.go:19-22, 45, 58-73: the configuration in use.  [mc_loggers]
    and [mc_cas] are those the monitor queries, [mc_all_loggers] and [mc_all_cas]
    those of the public configuration. *)
Record mconf : Type := mkmconf {
  mc_crypto : cconf P;
  mc_loggers : list string;
  mc_cas : list string;
  mc_all_loggers : list string;
  mc_all_cas : list string;
  mc_offset : Z
}.

(** Functions waiting in time.AfterFunc: monitor/types.go:251-262 and
    monitor/monitor.go:319-339 ([Sth] for "logger" and [Rev] for "ca"). *)
Inductive timer := TCrv (ca : string) (d : bitset) | TAccuse (e : string) (f : fam).

(** monitor/types.go:19-56, MonitorContext: the storages, the pending timers, and
    the update files written, by directory name. *)
Record mst : Type := mkmst {
  m_temp : gmap gid gobj;
  m_con : gmap gid gobj;
  m_acc : gmap gid gobj;
  m_con_d : gmap gid gobj;
  m_acc_d : gmap gid gobj;
  m_sth : gmap gid gobj;
  m_rev : gmap gid gobj;
  m_crv : gmap string bitset;
  m_timers : list timer;
  m_files : gmap string string
}.

(** monitor/types.go:312-361, InitializeMonitorContext. *)
Definition monitor_init : mst := mkmst ∅ ∅ ∅ ∅ ∅ ∅ ∅ ∅ [] ∅.

Definition set_timers (s : mst) (l : list timer) : mst :=
  mkmst (m_temp s) (m_con s) (m_acc s) (m_con_d s) (m_acc_d s) (m_sth s) (m_rev s) (m_crv s) l (m_files s).
Definition set_crv (s : mst) (v : gmap string bitset) : mst :=
  mkmst (m_temp s) (m_con s) (m_acc s) (m_con_d s) (m_acc_d s) (m_sth s) (m_rev s) v (m_timers s) (m_files s).
Definition set_files (s : mst) (v : gmap string string) : mst :=
  mkmst (m_temp s) (m_con s) (m_acc s) (m_con_d s) (m_acc_d s) (m_sth s) (m_rev s) (m_crv s) (m_timers s) v.

(** monitor/types.go:165-201, GetObject: an absent entry, and a type that has no
    storage, give the zero object. *)
Definition get_object (s : mst) (i : gid) : gobj :=
  match kind_of (i_type i) with
  | KObj OCon => default zero_obj (m_con s !! i)
  | KObj (OFull Acc) => default zero_obj (m_acc s !! i)
  | KObj (OFull Sth) => default zero_obj (m_sth s !! i)
  | KObj (OFull Rev) => default zero_obj (m_rev s !! i)
  | KObj (OInit Sth) | KObj (OInit Rev) => default zero_obj (m_temp s !! i)
  | _ => zero_obj
  end.

(** monitor/types.go:202-207, IsDuplicate. *)
Definition is_duplicate (s : mst) (g : gobj) : bool := bool_decide (get_object s (get_id g) = g).

(** monitor/types.go:209-268, StoreObject. *)
Definition store (s : mst) (o : gobj) : mst :=
  let i := get_id o in
  let '(mkmst temp con acc con_d acc_d sth rev crv timers files) := s in
  match obj_kind o with
  | KObj OCon => mkmst temp (<[i := o]> con) acc (<[i := o]> con_d) acc_d sth rev crv timers files
  | KObj (OFull Acc) => mkmst temp con (<[i := o]> acc) con_d (<[i := o]> acc_d) sth rev crv timers files
  | KObj (OFull Sth) => mkmst temp con acc con_d acc_d (<[i := o]> sth) rev crv timers files
  | KObj (OFull Rev) =>
      mkmst temp con acc con_d acc_d sth (<[i := o]> rev) crv
            (timers ++ [TCrv (g_p0 o) (snd (srh_and_dcrv z o))])%list files
  | _ => mkmst (<[i := o]> temp) con acc con_d acc_d sth rev crv timers files
  end.

(** monitor/types.go:251-261: the set Union returns is dropped. *)
Definition crv_timer (s : mst) (ca : string) (d : bitset) : mst :=
  match m_crv s !! ca with
  | None => set_crv s (<[ca := d]> (m_crv s))
  | Some _ => s
  end.

(** The identifiers monitor/types.go:91-95, 102-106 and monitor/monitor.go:374-387 look up. *)
Definition con_key (e : string) : gid := mkgid "0" CON_INIT e.
Definition acc_key (m : nat) (e : string) : gid := mkgid (pad2 m) ACC_FULL e.

(** monitor/types.go:88-112, Clean_Conflicting_Object. *)
Definition unconvicted (s : mst) (kv : gid * gobj) : Prop := m_con s !! con_key (i_entity (fst kv)) = None.
Global Instance unconvicted_dec s kv : Decision (unconvicted s kv).
Proof. unfold unconvicted. apply _. Defined.
Definition clean (s : mst) : mst :=
  mkmst (m_temp s) (m_con s) (m_acc s) (m_con_d s) (m_acc_d s)
        (filter (unconvicted s) (m_sth s)) (filter (unconvicted s) (m_rev s)) (m_crv s) (m_timers s) (m_files s).

(** monitor/types.go:271-297, WipeStorage in minute [m] (read once). *)
Definition of_period (p : string) (kv : gid * gobj) : Prop := i_period (fst kv) = p.
Global Instance of_period_dec p kv : Decision (of_period p kv).
Proof. unfold of_period. apply _. Defined.
Definition wipe (m : nat) (s : mst) : mst :=
  let f := filter (of_period (pad2 m)) in
  mkmst ∅ (m_con s) (m_acc s) (f (m_con_d s)) (f (m_acc_d s)) (f (m_sth s)) (f (m_rev s)) (m_crv s) (m_timers s) (m_files s).

Context (c : mconf).

(** What the monitor sends out: an object to its gossiper, or a query to a
    logger ([Sth]) or CA ([Rev]). *)
Inductive mout := MSend (g : gobj) | MAsk (f : fam) (url : string).

(** monitor/monitor.go:395-411, IsLogger and IsAuthority. *)
Definition is_logger (e : string) : bool := existsb (String.eqb e) (mc_all_loggers c).
Definition is_authority (e : string) : bool := existsb (String.eqb e) (mc_all_cas c).

(** monitor/monitor.go:474-491, Process_valid_object. *)
Definition process_valid (s : mst) (g : gobj) : mst * list mout :=
  match obj_kind g with
  | KObj (OInit Sth) => (s, if is_logger (g_signer g) then [MSend g] else [])
  | KObj (OInit Rev) => (s, if is_authority (g_signer g) then [MSend g] else [])
  | KObj (OFull _) | KObj OCon => (store s g, [])
  | _ => (s, [])
  end.

(** monitor/monitor.go:43-65, handle_gossip_from_gossiper, on the object the decoder
    leaves in gossip_obj (a decoding error is only reported). *)
Definition handle_gossip (s : mst) (g : gobj) : mst * list mout :=
  if is_duplicate s g then (s, [])
  else match obj_kind g with
       | KObj (OInit Sth) | KObj (OInit Rev) => (store s g, [])
       | _ => process_valid s g
       end.

(** monitor/monitor.go:373-393, Check_entity_pom in minute [m]. *)
Definition has_pom (s : mst) (m : nat) (e : string) : bool :=
  bool_decide (is_Some (m_acc s !! acc_key m e)) || bool_decide (is_Some (m_con s !! con_key e)).

(** monitor/monitor.go:134-141 and 230-238: which entities are queried. *)
Definition query (s : mst) (m : nat) (f : fam) (urls : list string) : list mout :=
  map (MAsk f) (List.filter (λ e, negb (has_pom s m e)) urls).

(** monitor/monitor.go:493-521, VerifySRH on the parts of a revocation object. *)
Definition check_rev (s : mst) (g : gobj) : verdict :=
  let '(srh, d) := srh_and_dcrv z g in
  verify_srh (mc_crypto c) srh d (m_crv s !! g_p0 g) (g_period g).

(** monitor/monitor.go:316-340: AfterFunc of Wait_then_accuse. *)
Definition wait_then_accuse (s : mst) (e : string) (f : fam) : mst :=
  set_timers s (m_timers s ++ [TAccuse e f])%list.

(** monitor/monitor.go:142-170 and 238-281, the goroutine of a query to [url].  [r]
    is the object in the answer, [None] a connection or JSON error.  A panic in a
    goroutine ends the process: [None]. *)
Definition handle_reply (s : mst) (f : fam) (url : string) (r : option gobj) : option (mst * list mout) :=
  match r with
  | None => Some (wait_then_accuse s url f, [])
  | Some g =>
      match verify (mc_crypto c) g with
      | Panics => None
      | Reject => Some (wait_then_accuse s url f, [])
      | Accept =>
          match f with
          | Rev =>
              match check_rev s g with
              | Panics => None
              | Reject => Some (wait_then_accuse s url f, [])
              | Accept => Some (process_valid s g)
              end
          | _ => Some (process_valid s g)
          end
      end
  end.

(** monitor/monitor.go:293-311: the accusation. *)
Definition accusation (m : nat) (stamp e : string) : gobj :=
  mkobj "CTng" (pad2 m) ACC_INIT (cc_self (mc_crypto c)) []
        (rsasig_string (default (mkrsasig "" "") (cc_sign (mc_crypto c) (e ++ "" ++ "")))) "" stamp "RSA" e "" "".

(** monitor/monitor.go:289-314, AccuseEntity. *)
Definition accuse (s : mst) (m : nat) (stamp e : string) : list mout :=
  if has_pom s m e then [] else [MSend (accusation m stamp e)].

(** monitor/monitor.go:319-338, the body of the timer. *)
Definition accuse_timer (s : mst) (m : nat) (stamp e : string) (f : fam) : list mout :=
  let ok := bool_decide (is_Some (m_temp s !! mkgid (pad2 m) (init_type f) e)) in
  if negb (has_pom s m e) && negb ok then accuse s m stamp e else [].

Definition fire (s : mst) (m : nat) (stamp : string) (t : timer) : mst * list mout :=
  match t with
  | TCrv ca d => (crv_timer s ca d, [])
  | TAccuse e f => (s, accuse_timer s m stamp e f)
  end.

(** monitor/monitor.go:413-439, GenerateUpdate; Go lists the entries of a map in
    some order. *)
Definition generate_update (s : mst) (m : nat) : update :=
  mkupd (map snd (map_to_list (m_sth s))) (map snd (map_to_list (m_rev s)))
        (map snd (map_to_list (m_con_d s))) (map snd (map_to_list (m_acc_d s)))
        (cc_self (mc_crypto c)) (pad2 m).

(** monitor/monitor.go:463-467 and monitor/types.go:114-121, the update file (the file of
    revocation vectors, which nothing reads back, is left out). *)
Definition publish (s : mst) (m : nat) : mst :=
  set_files s (<["Period_" ++ itoa (Z.of_nat m - mc_offset c) := update_marshal (generate_update s m)]> (m_files s)).

(** What happens to a monitor.  The three steps of f1 (monitor/monitor.go:460-468) are
    separate, so that other events may come between them; each handler and
    timer function is one step. *)
Inductive mevent :=
| MGossip (g : gobj)                             (** POST /monitor/receive-gossip-from-gossiper *)
| MQueryLoggers (m : nat)
| MQueryCAs (m : nat)
| MReply (f : fam) (url : string) (r : option gobj)
| MFire (n : nat) (m : nat) (stamp : string)     (** the [n]th pending timer fires *)
| MClean
| MWipe (m : nat)
| MPublish (m : nat).

Definition mstep (s : mst) (e : mevent) : option (mst * list mout) :=
  match e with
  | MGossip g => Some (handle_gossip s g)
  | MQueryLoggers m => Some (s, query s m Sth (mc_loggers c))
  | MQueryCAs m => Some (s, query s m Rev (mc_cas c))
  | MReply f url r => handle_reply s f url r
  | MFire n m stamp =>
      match m_timers s !! n with
      | None => Some (s, [])
      | Some t => Some (fire (set_timers s (delete n (m_timers s))) m stamp t)
      end
  | MClean => Some (clean s, [])
  | MWipe m => Some (wipe m s, [])
  | MPublish m => Some (publish s m, [])
  end.

(** A whole history; [None]: the process has died. *)
Fixpoint mrun (s : mst) (l : list mevent) : option (mst * list mout) :=
  match l with
  | [] => Some (s, [])
  | e :: r =>
      match mstep s e with
      | None => None
      | Some (s1, o1) =>
          match mrun s1 r with
          | None => None
          | Some (s2, o2) => Some (s2, o1 ++ o2)%list
          end
      end
  end.

(** monitor/client-update-monitor.go:43-56, requestupdate: [period] is the string in
    the request body ("" if it does not decode).  [None]: the file is missing or
    unreadable and the handler panics on the nil update. *)
Definition request_update (s : mst) (period : string) : option string :=
  match m_files s !! ("Period_" ++ period) with
  | None => None
  | Some text => served <$> update_unmarshal text
  end.
End monitor.
