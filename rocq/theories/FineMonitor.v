(** monitor/*.go with every access to a storage map as a step of its own, in any interleaving of the goroutines: monitor/monitor.go:43-65, 114-281,
    289-340, 373-393, 413-491 and monitor/types.go:88-112, 165-297.

    Every critical section of the monitor is a single access, so nothing is lost by leaving out the locks (LockUse.v has them).  An access without a lock is
    taken to be atomic.  The two queries of a period are goroutines of their own; a query that is under way is known by its answer, which may come at any time.
    The clock is whatever it is at each step. *)
From Verif Require Import Bytes Types Crypto Verify Bitset Revocation Clock Monitor.
Open Scope string_scope.

(** The storage maps ranged over. *)
Inductive tab := TTemp | TSth | TRev | TConD | TAccD.

Definition tget (t : tab) (s : mst) : gmap gid gobj :=
  match t with TTemp => m_temp s | TSth => m_sth s | TRev => m_rev s | TConD => m_con_d s | TAccD => m_acc_d s end.
Definition tset (t : tab) (s : mst) (v : gmap gid gobj) : mst :=
  let '(mkmst temp con acc con_d acc_d sth rev crv timers files) := s in
  match t with
  | TTemp => mkmst v con acc con_d acc_d sth rev crv timers files
  | TSth => mkmst temp con acc con_d acc_d v rev crv timers files
  | TRev => mkmst temp con acc con_d acc_d sth v crv timers files
  | TConD => mkmst temp con acc v acc_d sth rev crv timers files
  | TAccD => mkmst temp con acc con_d v sth rev crv timers files
  end.
Definition set_con (s : mst) (v : gmap gid gobj) : mst :=
  mkmst (m_temp s) v (m_acc s) (m_con_d s) (m_acc_d s) (m_sth s) (m_rev s) (m_crv s) (m_timers s) (m_files s).
Definition set_acc (s : mst) (v : gmap gid gobj) : mst :=
  mkmst (m_temp s) (m_con s) v (m_con_d s) (m_acc_d s) (m_sth s) (m_rev s) (m_crv s) (m_timers s) (m_files s).

(** What Check_entity_pom is called for: first by the timer (which has found a statement or not), then by AccuseEntity, or before a query (with the
    entities that come next). *)
Inductive purpose := First (ok : bool) | Second | Asking (f : fam) (next : list string).

(** The loops of the task at the end of a period. *)
Inductive job := JClean (t : tab) | JWipeAll (t : tab) | JWipe (t : tab) | JCollect (t : tab).
Definition jtab (j : job) : tab := match j with JClean t | JWipeAll t | JWipe t | JCollect t => t end.

(** The loops of Clean_Conflicting_Object (types.go:90 and 101), WipeStorage (types.go:272, 276, 281, 286, 291) and GenerateUpdate (monitor.go:418-429). *)
Definition task : list job :=
  [JClean TSth; JClean TRev; JWipeAll TTemp; JWipe TSth; JWipe TRev; JWipe TConD; JWipe TAccD; JCollect TSth; JCollect TRev; JCollect TConD; JCollect TAccD].

(** A goroutine, by what it does next. *)
Inductive goro :=
| GDup (g : gobj)                        (** types.go:202-207, IsDuplicate: looks for the object *)
| GStore (g : gobj)                      (** types.go:209-268, StoreObject: stores it *)
| GDelta (g : gobj)                      (** types.go:223 and 230: stores a proof into the second map *)
| GArm (g : gobj)                        (** types.go:238-262: the object is a revocation object, a timer is set *)
| GCrvLook (ca : string) (d : bitset)    (** types.go:252, in the timer *)
| GCrvSet (ca : string) (d : bitset)     (** types.go:253-255 *)
| GSrh (url : string) (g : gobj)         (** monitor.go:269-279 and 495, VerifySRH: looks for the vector *)
| GTemp (e : string) (f : fam)           (** monitor.go:319-334, in the timer: looks for a statement *)
| GPomA (w : purpose) (e : string)       (** monitor.go:374-382, Check_entity_pom: looks for an accusation proof *)
| GPomC (w : purpose) (e : string)       (** monitor.go:383-391: looks for a conflict proof *)
| GAccuse (e : string)                   (** monitor.go:293-313: makes and sends the accusation *)
| GLoop (j : job) (todo seen : gset gid) (rest : list job) (u : update)   (** at the head of a loop *)
| GLook (j : job) (k : gid) (todo seen : gset gid) (rest : list job) (u : update)   (** types.go:96 and 107: looks for a conflict proof *)
| GDel (j : job) (k : gid) (todo seen : gset gid) (rest : list job) (u : update)    (** types.go:98, 109, 273, 278, 283, 288 and 293: deletes *)
| GPeriod (u : update)                   (** monitor.go:436: the period is written into the update *)
| GSave (u : update).                    (** monitor.go:464-467: the update is saved under the current period *)

(** What others see: an object sent to the gossiper, a query, an update saved. *)
Inductive fout := FSend (g : gobj) | FAsk (f : fam) (url : string) | FUpdate (dir : string) (u : update).

Section fine.
Context {P : prims} (z : gzip) (c : @mconf P).

(** monitor/monitor.go:474-491, Process_valid_object. *)
Definition valid (g : gobj) : option goro * list fout :=
  match obj_kind g with
  | KObj (OInit Sth) => (None, if is_logger c (g_signer g) then [FSend g] else [])
  | KObj (OInit Rev) => (None, if is_authority c (g_signer g) then [FSend g] else [])
  | KObj (OFull _) | KObj OCon => (Some (GStore g), [])
  | _ => (None, [])
  end.

(** monitor/monitor.go:134-141 and 230-238: on to the next entity. *)
Definition asking (f : fam) (urls : list string) : option goro :=
  match urls with [] => None | e :: r => Some (GPomA (Asking f r) e) end.

(** What Check_entity_pom returned. *)
Definition answer (w : purpose) (e : string) (b : bool) : option goro * list fout :=
  match w with
  | First ok => (if negb b && negb ok then Some (GPomA Second e) else None, [])
  | Second => (if b then None else Some (GAccuse e), [])
  | Asking f r => (asking f r, if b then [] else [FAsk f e])
  end.

(** The beginning of a loop: a range over a map produces every entry that is there all the time, and may produce those that are added. *)
Definition begin (l : list job) (u : update) (s : mst) : goro :=
  match l with [] => GPeriod u | j :: r => GLoop j (dom (tget (jtab j) s)) ∅ r u end.

Definition collect (t : tab) (o : gobj) (u : update) : update :=
  let '(mkupd sths revs cns accs id p) := u in
  match t with
  | TSth => mkupd (sths ++ [o]) revs cns accs id p
  | TRev => mkupd sths (revs ++ [o]) cns accs id p
  | TConD => mkupd sths revs (cns ++ [o]) accs id p
  | TAccD => mkupd sths revs cns (accs ++ [o]) id p
  | TTemp => u
  end%list.

(** The update before anything is collected. *)
Definition empty_update : update := mkupd [] [] [] [] (cc_self (mc_crypto c)) "".

(** One step of goroutine [a], in minute [m] at time [stamp]; [k] is the entry that a range produces, if it can.  The state, what the goroutine does
    next, and what others see; [None]: a panic ends the process.  (An entry that is deleted and stored again is not produced twice.) *)
Definition gstep (s : mst) (a : goro) (m : nat) (stamp : string) (k : gid) : option (mst * (option goro * list fout)) :=
  match a with
  | GDup g =>
      Some (s, if is_duplicate s g then (None, [])
               else match obj_kind g with KObj (OInit Sth) | KObj (OInit Rev) => (Some (GStore g), []) | _ => valid g end)
  | GStore g =>
      let i := get_id g in
      Some (match obj_kind g with
            | KObj OCon => (set_con s (<[i := g]> (m_con s)), (Some (GDelta g), []))
            | KObj (OFull Acc) => (set_acc s (<[i := g]> (m_acc s)), (Some (GDelta g), []))
            | KObj (OFull Sth) => (tset TSth s (<[i := g]> (m_sth s)), (None, []))
            | KObj (OFull Rev) => (tset TRev s (<[i := g]> (m_rev s)), (Some (GArm g), []))
            | _ => (tset TTemp s (<[i := g]> (m_temp s)), (None, []))
            end)
  | GDelta g =>
      let t := match obj_kind g with KObj OCon => TConD | _ => TAccD end in
      Some (tset t s (<[get_id g := g]> (tget t s)), (None, []))
  | GArm g => Some (set_timers s (m_timers s ++ [TCrv (g_p0 g) (snd (srh_and_dcrv z g))])%list, (None, []))
  | GCrvLook ca d => Some (s, (match m_crv s !! ca with None => Some (GCrvSet ca d) | Some _ => None end, []))
  | GCrvSet ca d => Some (set_crv s (<[ca := d]> (m_crv s)), (None, []))
  | GSrh url g =>
      match check_rev z c s g with
      | Panics => None
      | Reject => Some (wait_then_accuse s url Rev, (None, []))
      | Accept => Some (s, valid g)
      end
  | GTemp e f => Some (s, (Some (GPomA (First (bool_decide (is_Some (m_temp s !! mkgid (pad2 m) (init_type f) e)))) e), []))
  | GPomA w e => Some (s, if bool_decide (is_Some (m_acc s !! acc_key m e)) then answer w e true else (Some (GPomC w e), []))
  | GPomC w e => Some (s, answer w e (bool_decide (is_Some (m_con s !! con_key e))))
  | GAccuse e => Some (s, (None, [FSend (accusation c m stamp e)]))
  | GLoop j todo seen rest u =>
      Some (s, (Some (
        if bool_decide (k ∈ seen) then (if bool_decide (todo = ∅) then begin rest u s else a)
        else match tget (jtab j) s !! k with
             | Some o =>
                 let todo := todo ∖ {[k]} in
                 let seen := {[k]} ∪ seen in
                 match j with
                 | JClean _ => GLook j k todo seen rest u
                 | JWipeAll _ => GDel j k todo seen rest u
                 | JWipe _ => if String.eqb (i_period k) (pad2 m) then GLoop j todo seen rest u else GDel j k todo seen rest u
                 | JCollect t => GLoop j todo seen rest (collect t o u)
                 end
             | None => if bool_decide (todo = ∅) then begin rest u s else GLoop j (todo ∖ {[k]}) seen rest u
             end), []))
  | GLook j k todo seen rest u =>
      Some (s, (Some (if bool_decide (is_Some (m_con s !! con_key (i_entity k))) then GDel j k todo seen rest u else GLoop j todo seen rest u), []))
  | GDel j k todo seen rest u => Some (tset (jtab j) s (delete k (tget (jtab j) s)), (Some (GLoop j todo seen rest u), []))
  | GPeriod u => Some (s, (Some (GSave (mkupd (u_sths u) (u_revs u) (u_cons u) (u_accs u) (u_monitor u) (pad2 m))), []))
  | GSave u => Some (s, (None, [FUpdate ("Period_" ++ itoa (Z.of_nat m - mc_offset c)) u]))
  end.

(** The monitor: its storages and its goroutines. *)
Record fmon : Type := mkfm { fm_st : mst; fm_go : list goro }.
Definition fm_init : fmon := mkfm monitor_init [].

(** What happens: an object arrives from the gossiper; the loggers ([Sth]) or CAs are to be queried; an answer arrives; a timer runs out; the task
    of a period starts; the [n]th goroutine makes a step. *)
Inductive fevent :=
| FGossip (g : gobj)
| FQuery (f : fam)
| FReply (f : fam) (url : string) (r : option gobj)
| FFire (n : nat)
| FTask
| FStep (n : nat) (m : nat) (stamp : string) (k : gid).

Definition spawn (y : fmon) (a : option goro) : fmon :=
  mkfm (fm_st y) (fm_go y ++ match a with Some a => [a] | None => [] end)%list.

(** monitor/monitor.go:142-170 and 238-281: what is done with an answer before the storages are looked at. *)
Definition on_reply (y : fmon) (f : fam) (url : string) (r : option gobj) : option (fmon * list fout) :=
  let bad := Some (mkfm (wait_then_accuse (fm_st y) url f) (fm_go y), []) in
  match r with
  | None => bad
  | Some g =>
      match verify (mc_crypto c) g with
      | Panics => None
      | Reject => bad
      | Accept => match f with Rev => Some (spawn y (Some (GSrh url g)), []) | _ => Some (spawn y (fst (valid g)), snd (valid g)) end
      end
  end.

Definition fstep (y : fmon) (e : fevent) : option (fmon * list fout) :=
  match e with
  | FGossip g => Some (spawn y (Some (GDup g)), [])
  | FQuery f => Some (spawn y (asking f (match f with Rev => mc_cas c | _ => mc_loggers c end)), [])
  | FReply f url r => on_reply y f url r
  | FFire n =>
      match m_timers (fm_st y) !! n with
      | None => Some (y, [])
      | Some t =>
          let s := set_timers (fm_st y) (delete n (m_timers (fm_st y))) in
          Some (spawn (mkfm s (fm_go y)) (Some (match t with TCrv ca d => GCrvLook ca d | TAccuse e f => GTemp e f end)), [])
      end
  | FTask => Some (spawn y (Some (begin task empty_update (fm_st y))), [])
  | FStep n m stamp k =>
      match fm_go y !! n with
      | None => Some (y, [])
      | Some a =>
          match gstep (fm_st y) a m stamp k with
          | None => None
          | Some (s, (next, o)) => Some (mkfm s (match next with Some b => <[n := b]> (fm_go y) | None => delete n (fm_go y) end), o)
          end
      end
  end.

(** A history; [None]: the process has died. *)
Fixpoint frun (y : fmon) (l : list fevent) : option (fmon * list fout) :=
  match l with
  | [] => Some (y, [])
  | e :: r =>
      match fstep y e with
      | None => None
      | Some (y1, o1) => match frun y1 r with None => None | Some (y2, o2) => Some (y2, o1 ++ o2)%list end
      end
  end.
End fine.
