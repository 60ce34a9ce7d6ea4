(** Which locks and maps the functions of the gossiper, the monitor, the CA and the logger use, in which order.  What the data
    decide (whether an object is valid, stored already, ...) is a parameter. *)
From Verif Require Import Bytes Types Locks.
Open Scope string_scope.

Definition reading (k : string) (body : list op) : list op := (RLock k :: body ++ [RUnlock k])%list.
Definition writing (k : string) (body : list op) : list op := (Lock k :: body ++ [Unlock k])%list.

(* ---------------------------------------------------------------- *)
(** * The gossiper *)

(** gossiper/types.go:27-56: the maps of Gossip_object_storage and their locks. *)
Definition fam_name (f : fam) : string := match f with Sth => "STH" | Rev => "REV" | Acc => "ACC" end.
Definition tbl_name (k : okind) : string :=
  match k with OInit f => fam_name f ++ "_INIT" | OCon => "CON_INIT" | OFull f => fam_name f ++ "_FULL" end.
Definition frag_name (f : fam) : string := fam_name f ++ "_FRAG".
Definition lock_of (m : string) : string := m ++ "_LOCK".
Definition storage_locks : list string :=
  map lock_of ["STH_INIT"; "REV_INIT"; "ACC_INIT"; "CON_INIT"; "STH_FRAG"; "REV_FRAG"; "ACC_FRAG"; "STH_FULL"; "REV_FULL"; "ACC_FULL"; "CON_FULL"; "REV_PAYLOAD"].

(** Interface.go:118-123, InBlacklistPerm. *)
Definition in_blacklist_ops : list op := reading (lock_of "BLACKLIST_PERM") [Read "BLACKLIST_PERM"].
(** Interface.go:184-188, 218-222: add to the blacklist unless [listed]. *)
Definition blacklist_ops (listed : bool) : list op :=
  (in_blacklist_ops ++ if listed then [] else writing (lock_of "BLACKLIST_PERM") [Write "BLACKLIST_PERM"])%list.
(** Interface.go:597-611, IsInitConvergent, and 580-595, IsConvergent: three read locks, released in the reverse order; the lengths are not accesses. *)
Definition init_convergent_ops : list op :=
  [RLock "REV_INIT_LOCK"; RLock "STH_INIT_LOCK"; RLock "ACC_INIT_LOCK"; RUnlock "ACC_INIT_LOCK"; RUnlock "STH_INIT_LOCK"; RUnlock "REV_INIT_LOCK"].
Definition convergent_ops : list op :=
  [RLock "REV_FULL_LOCK"; RLock "STH_FULL_LOCK"; RLock "ACC_FULL_LOCK"; RUnlock "ACC_FULL_LOCK"; RUnlock "STH_FULL_LOCK"; RUnlock "REV_FULL_LOCK"].

(** The functions of the gossiper that use the shared maps. *)
Inductive gcall :=
| GSavePayload (valid : bool) | GSearchPayload | GGetRev (present : bool) | GReconstruct
| GInBlacklist | GTraffic (sent : bool)
| GStore (k : kind) (valid present dup listed : bool)
| GReadAndStore (f : fam) (room : bool)
| GIsDuplicate (k : kind) (present : bool)
| GObjectList (f : fam) | GCount (k : kind) | GObject (k : okind)
| GIsConvergent
| GSave (n_sth n_rev n_acc : nat) (logged : bool) | GWipe.

(** The duplicate test of one map entry, Interface.go:260-263 (DupCheckInLock) and 329-332 (IsDuplicate_G): a second read if there is an entry. *)
Definition dup_reads (m : string) (present : bool) : list op := Read m :: if present then [Read m] else [].

(** An INIT or CON branch of Store_gossip_object up to the unlocking, Interface.go:136-143. *)
Definition insert_ops (m : string) (present dup : bool) : list op :=
  writing (lock_of m) (dup_reads m present ++ if dup then [] else [Write m])%list.

Definition gcall_ops (c : gcall) : list op :=
  match c with
  | GSavePayload valid => if valid then writing (lock_of "REV_PAYLOAD") [Write "REV_PAYLOAD"] else [] (* Interface.go:43-52 *)
  | GSearchPayload | GReconstruct => reading (lock_of "REV_PAYLOAD") [Read "REV_PAYLOAD"] (* Interface.go:54-68, gen.go:36-45 *)
  | GGetRev present => reading (lock_of "REV_PAYLOAD") (dup_reads "REV_PAYLOAD" present) (* Interface.go:70-78 *)
  | GInBlacklist => in_blacklist_ops
  | GTraffic sent => writing (if sent then "Counter2_lock" else "Counter1_lock") [] (* gossiper_server.go:59-61, 76-78: the counters are not maps *)
  | GStore k valid present dup listed => (* Interface.go:125-225 *)
      if negb valid then [] else
      match k with
      | KObj (OInit f) => (insert_ops (tbl_name (OInit f)) present dup ++ if dup then [] else init_convergent_ops)%list
      | KObj OCon => (insert_ops (tbl_name OCon) present dup ++ if dup then [] else blacklist_ops listed ++ init_convergent_ops)%list
      | KFrag f => writing (lock_of (frag_name f)) [Read (frag_name f); Write (frag_name f)]
      | KObj (OFull f) =>
          (writing (lock_of (tbl_name (OFull f))) [Write (tbl_name (OFull f))] ++ match f with Acc => blacklist_ops listed | _ => [] end)%list
      | KUnknown => []
      end
  | GReadAndStore f room => (* Interface.go:227-256 *)
      writing (lock_of (frag_name f)) ([Read (frag_name f); Read (frag_name f)] ++ if room then [Read (frag_name f); Write (frag_name f)] else [])%list
  | GIsDuplicate k present => (* Interface.go:325-412 *)
      match k with
      | KObj k => reading (lock_of (tbl_name k)) (dup_reads (tbl_name k) present)
      | KFrag f => reading (lock_of (frag_name f)) (dup_reads (frag_name f) present)
      | KUnknown => []
      end
  | GObjectList f => reading (lock_of (frag_name f)) [Read (frag_name f)] (* Interface.go:436-453 *)
  | GCount k => (* Interface.go:455-527 *)
      match k with
      | KObj k => reading (lock_of (tbl_name k)) [Read (tbl_name k)]
      | KFrag f => reading (lock_of (frag_name f)) [Read (frag_name f)]
      | KUnknown => []
      end
  | GObject k => reading (lock_of (tbl_name k)) [Read (tbl_name k)] (* Interface.go:529-561 *)
  | GIsConvergent => convergent_ops
  | GSave n1 n2 n3 logged => (* Interface.go:80-116 and 35-41: countFragments ranges over the fragment maps, without a lock *)
      (repeat (Read "STH_FRAG") (S n1) ++ repeat (Read "REV_FRAG") (S n2) ++ repeat (Read "ACC_FRAG") (S n3) ++ if logged then [Write "Gossiper_log"] else [])%list
  | GWipe => [Replace storage_locks; Replace [lock_of "BLACKLIST_PERM"]] (* Interface.go:629-639: both structs are overwritten, with their locks *)
  end.

(** gossiper_server.go:49-560: a request handler or a signing timer calls functions other than Save and WipeStorage, in an order
    that depends on the request and on what is stored; all orders are allowed here. *)
Definition gossip_handler (ops : list op) : Prop :=
  exists cs, (forall c, c ∈ cs -> match c with GSave _ _ _ _ | GWipe => False | _ => True end) /\ ops = concat (map gcall_ops cs).
(** gossiper_server.go:571-574: the task at the end of a period. *)
Definition gossip_period (n1 n2 n3 : nat) (logged : bool) : list op := (gcall_ops (GSave n1 n2 n3 logged) ++ gcall_ops GWipe)%list.
(** All goroutines of a gossiper. *)
Definition gossip_goroutine (ops : list op) : Prop := gossip_handler ops \/ exists n1 n2 n3 b, ops = gossip_period n1 n2 n3 b.
(** gossiper_server.go:146-208, 331-363: the handler of a fragment that is new, of an entity not blacklisted, and not the last one needed. *)
Definition frag_handler (f : fam) : list op :=
  concat (map gcall_ops [GTraffic false; GIsDuplicate (KFrag f) false; GInBlacklist; GCount (KObj (OFull f)); GReadAndStore f true]).

(* ---------------------------------------------------------------- *)
(** * The monitor *)

(** monitor/types.go:19-56: the map an object is kept in. *)
Definition mon_map (k : kind) : option (string * string) :=
  match k with
  | KObj OCon => Some ("Storage_CONFLICT_POM", "CONFLICT_POM_lock")
  | KObj (OFull Acc) => Some ("Storage_ACCUSATION_POM", "ACCUSATION_POM_lock")
  | KObj (OFull Sth) => Some ("Storage_STH_FULL", "STH_FULL_lock")
  | KObj (OFull Rev) => Some ("Storage_REV_FULL", "REV_FULL_lock")
  | KObj (OInit Sth) | KObj (OInit Rev) => Some ("Storage_TEMP", "TEMP_lock")
  | _ => None
  end.
(** monitor/types.go:165-201, GetObject. *)
Definition mon_get (k : kind) : list op :=
  match mon_map k with Some (m, l) => reading l [Read m] | None => [] end.
(** monitor/types.go:209-268, StoreObject; the timer of a REV_FULL object is [crv_timer].  The default case is not reached by the handlers (monitor.go:488-490). *)
Definition mon_store (k : kind) : list op :=
  match mon_map k with
  | Some (m, l) =>
      (writing l [Write m] ++
       match k with KObj OCon => [Write "Storage_CONFLICT_POM_DELTA"] | KObj (OFull Acc) => [Write "Storage_ACCUSATION_POM_DELTA"] | _ => [] end)%list
  | None => []
  end.
(** monitor/monitor.go:43-64, handle_gossip_from_gossiper, and 474-491, Process_valid_object. *)
Definition mon_handler (k : kind) (dup : bool) : list op := (mon_get k ++ if dup then [] else mon_store k)%list.
(** monitor/types.go:251-261: the timer of a REV_FULL object; the CRV map is read without the lock; Union changes the vector, after reading the map. *)
Definition crv_timer (present : bool) : list op :=
  (Read "Storage_CRV" :: writing "CRV_lock" (if present then [Read "Storage_CRV"] else [Write "Storage_CRV"]))%list.
(** monitor/monitor.go:373-393, Check_entity_pom. *)
Definition mon_check (accused : bool) : list op := Read "Storage_ACCUSATION_POM" :: if accused then [] else [Read "Storage_CONFLICT_POM"].
(** monitor/monitor.go:316-340, the timer of Wait_then_accuse, and 289-314, AccuseEntity, which checks again unless the entity is [known] to misbehave or its object has come. *)
Definition accuse_timer (accused known accused' : bool) : list op :=
  (Read "Storage_TEMP" :: mon_check accused ++ if known then [] else mon_check accused')%list.
(** monitor/monitor.go:134-172, 230-284: a round of queries checks each entity. *)
Definition mon_round (checks : list bool) : list op := concat (map mon_check checks).
(** The answer to a query; that of a [ca] is compared with the CRV (493-517, VerifySRH).  An answer that passes goes to Process_valid_object, which stores it if its type is that of a full object or of a conflict proof. *)
Definition mon_answer (ca : bool) (k : kind) : list op :=
  ((if ca then [Read "Storage_CRV"] else []) ++ match k with KObj (OFull _) | KObj OCon => mon_store k | _ => [] end)%list.
(** Ranging over a map and deleting the entries for which the flag is set. *)
Definition ranging (m : string) (deleted : list bool) : list op := (Read m :: concat (map (λ d : bool, if d then [Write m; Read m] else [Read m]) deleted))%list.
(** monitor/types.go:88-112, Clean_Conflicting_Object: as [ranging], with a look at the conflict proofs for each entry. *)
Definition cleaning (m : string) (deleted : list bool) : list op :=
  (Read m :: concat (map (λ d : bool, Read "Storage_CONFLICT_POM" :: if d then [Write m; Read m] else [Read m]) deleted))%list.
(** monitor/monitor.go:460-468: Clean_Conflicting_Object, WipeStorage (types.go:271-297), GenerateUpdate (monitor.go:413-438), SaveStorage (types.go:114-132). *)
Definition mon_period (c1 c2 w1 w2 w3 w4 w5 : list bool) (n1 n2 n3 n4 n5 : nat) : list op :=
  (cleaning "Storage_STH_FULL" c1 ++ cleaning "Storage_REV_FULL" c2 ++
   ranging "Storage_TEMP" w1 ++ ranging "Storage_STH_FULL" w2 ++ ranging "Storage_REV_FULL" w3 ++ ranging "Storage_CONFLICT_POM_DELTA" w4 ++ ranging "Storage_ACCUSATION_POM_DELTA" w5 ++
   repeat (Read "Storage_STH_FULL") n1 ++ repeat (Read "Storage_REV_FULL") n2 ++ repeat (Read "Storage_CONFLICT_POM_DELTA") n3 ++ repeat (Read "Storage_ACCUSATION_POM_DELTA") n4 ++
   repeat (Read "Storage_CRV") n5)%list.

(** The goroutines of a monitor: those that receive objects, from the gossiper or as answers, and all of them. *)
Definition mon_request (ops : list op) : Prop := (exists k dup, ops = mon_handler k dup) \/ (exists ca k, ops = mon_answer ca k).
Definition mon_goroutine (ops : list op) : Prop :=
  mon_request ops \/ (exists b, ops = crv_timer b) \/ (exists b1 b2 b3, ops = accuse_timer b1 b2 b3) \/ (exists l, ops = mon_round l) \/
  (exists c1 c2 w1 w2 w3 w4 w5 n1 n2 n3 n4 n5, ops = mon_period c1 c2 w1 w2 w3 w4 w5 n1 n2 n3 n4 n5).

(* ---------------------------------------------------------------- *)
(** * The CA and the logger *)

(** CA/server.go:213-233, receive_sth. *)
Definition ca_sth : list op := writing "STH_storage_lock" [Write "STH_storage"].
(** CA/server.go:236-263, receive_poi, with crypto/certpool.go:145-156 (GetCertBySubjectKeyID) and 175-186 (UpdateCertBySubjectKeyID, which changes the slice of
    certificates); [found]: the certificate is in the pool. *)
Definition ca_poi (found : bool) : list op :=
  (Read "STH_storage" :: Read "bySubjectKeyId" :: if found then writing "Certpool_lock" [Read "bySubjectKeyId"] else [])%list.
(** CA/server.go:134-210, requestREV: [counted] if the CA is not a normal one, [fake] if the answer is the second version, [silent] if there is none. *)
Definition ca_rev (counted fake silent : bool) : list op :=
  ((if counted then writing "Request_Count_lock" [] else []) ++ if silent then [] else [Read (if fake then "REV_storage_fake" else "REV_storage")])%list.
(** crypto/certpool.go:67-104, AddCert: [contained] in the pool already; [keyed] with a SubjectKeyId. *)
Definition add_cert (contained keyed : bool) : list op :=
  (Read "byName" :: if contained then [] else (if keyed then [Read "bySubjectKeyId"; Write "bySubjectKeyId"] else []) ++ [Read "byName"; Write "byName"])%list.
(** CA/server.go:337-375: the beginning of the period task empties the map of tree heads (294-298) and fills the pool, without locks. *)
Definition ca_begin (n : nat) (added : list (bool * bool)) : list op :=
  (ranging "STH_storage" (repeat true n) ++ concat (map (λ a : bool * bool, add_cert a.1 a.2) added))%list.
(** CA/server.go:376-441: the end of the period task; the new pool is another map. *)
Definition ca_end : list op :=
  ([Write "REV_storage"; Write "REV_storage_fake"; Read "REV_storage"; Read "REV_storage_fake"] ++ writing "Request_Count_lock" [])%list.

Definition ca_request (ops : list op) : Prop :=
  ops = ca_sth \/ (exists b, ops = ca_poi b) \/ (exists b1 b2 b3, ops = ca_rev b1 b2 b3).
Definition ca_goroutine (ops : list op) : Prop := ca_request ops \/ (exists n l, ops = ca_begin n l) \/ ops = ca_end.

(** Logger/server.go:112-130, receive_pre_cert. *)
Definition log_precert (contained keyed : bool) : list op := writing "CertPool_lock" (add_cert contained keyed).
(** Logger/server.go:46-108, requestSTH: the map is read while the lock of the counter is held. *)
Definition log_sth (fake silent : bool) : list op :=
  writing "Request_Count_lock" (if silent then [] else [Read (if fake then "STH_storage_fake" else "STH_storage")]).
(** Logger/server.go:207-252: publishing. *)
Definition log_publish : list op := ([Write "STH_storage"; Write "STH_storage_fake"] ++ writing "Request_Count_lock" [])%list.

Definition log_request (ops : list op) : Prop := (exists b1 b2, ops = log_precert b1 b2) \/ (exists b1 b2, ops = log_sth b1 b2).
Definition log_goroutine (ops : list op) : Prop := log_request ops \/ ops = log_publish.
