(** The handlers of the gossiper, one access to the shared maps at a time.

    The same Go functions as in Gossiper.v, but with the calls of sync.RWMutex they make and with each access to a map as a step of its own.
    Still one step, as there: posting one object to the neighbours, reading the clock (period and timestamp together), and setting a
    convergence time to the current second.  The counters of bytes and their locks are left out.  Trace entries are made with the access they record.
    Save and WipeStorage take no locks. *)
From Verif Require Import Bytes Hex Base64 Json Types Crypto Verify Prog Gossiper Locks LockUse Fine.
Open Scope string_scope.

Notation gmprog := (mprog gst gtask).

Section fine.
Context {P : prims} (cfg : gconf P).
Notation cc := (gc_crypto cfg).
Notation T := (cc_threshold cc).

(** The locks of the tables, gossiper/types.go:27-56. *)
Definition tlock (k : okind) : string := lock_of (tbl_name k).
Definition flock (f : fam) : string := lock_of (frag_name f).
Definition plock : string := lock_of "REV_PAYLOAD".
Definition block : string := lock_of "BLACKLIST_PERM".

(** Interface.go:118-123, InBlacklistPerm. *)
Definition m_in_blacklist (e : string) : gmprog bool := rlocked block (mread (λ s, in_blacklist s e)).

(** Interface.go:529-561, GetObject. *)
Definition m_get_object (i : gid) (k : okind) : gmprog gobj := rlocked (tlock k) (mread (λ s, get_object s i k)).

(** Interface.go:436-453, GetObjectList. *)
Definition m_get_list (i : gid) (f : fam) : gmprog (list gobj) := rlocked (flock f) (mread (λ s, get_object_list s i f)).

(** Interface.go:455-527, GetGossipObjectCount. *)
Definition m_obj_count (i : gid) (k : okind) : gmprog nat := rlocked (tlock k) (mread (λ s, obj_count s i k)).
Definition m_frag_count (i : gid) (f : fam) : gmprog nat := rlocked (flock f) (mread (λ s, frag_count s i f)).

(** Interface.go:257-324, DupCheckInLock: is there an entry (for fragments: is the list not empty); if so look at it. *)
Definition m_dup_obj (k : okind) (g : gobj) : gmprog bool :=
  mdo here <- mread (λ s, bool_decide (is_Some (get_tbl s k !! get_id g)));
  if here : bool then mdo o <- mread (λ s, get_object s (get_id g) k); MRet (same_sig o g) else MRet false.
Definition m_dup_frag (f : fam) (g : gobj) : gmprog bool :=
  mdo here <- mread (λ s, negb (Nat.eqb (length (get_object_list s (get_id g) f)) 0));
  if here : bool then mdo l <- mread (λ s, get_object_list s (get_id g) f); MRet (existsb (λ v, same_sig v g) l) else MRet false.

(** Interface.go:325-412, IsDuplicate_G; an unknown type is a step without an access. *)
Definition m_is_duplicate (g : gobj) : gmprog bool :=
  match obj_kind g with
  | KObj k => rlocked (tlock k) (m_dup_obj k g)
  | KFrag f => rlocked (flock f) (m_dup_frag f g)
  | KUnknown => mread (λ _, false)
  end.

(** Interface.go:613-627, IsMalicious, for STH and REV statements. *)
Definition m_is_malicious (f : fam) (g : gobj) : gmprog bool :=
  mdo o <- m_get_object (get_id g) (OInit f);
  MRet (bool_decide (g_signer g = g_signer o) && negb (same_sig g o)).

(** Interface.go:580-595, IsConvergent: three read locks; the number of conflict proofs is read without one. *)
Definition m_is_convergent : gmprog bool :=
  rlocked (tlock (OFull Rev)) (rlocked (tlock (OFull Sth)) (rlocked (tlock (OFull Acc)) (
    mdo n1 <- mread (λ s, size (t_rev_full s));
    mdo n2 <- mread (λ s, size (t_sth_full s));
    mdo n3 <- mread (λ s, size (t_acc_full s));
    mdo n4 <- mread (λ s, size (t_con_init s));
    MRet (Z.eqb (Z.of_nat (n1 + n2 + n3 + n4)) (gc_total_logger cfg + gc_total_ca cfg))))).

(** Interface.go:597-611, IsInitConvergent. *)
Definition m_is_init_convergent : gmprog bool :=
  rlocked (tlock (OInit Rev)) (rlocked (tlock (OInit Sth)) (rlocked (tlock (OInit Acc)) (
    mdo n1 <- mread (λ s, size (t_rev_init s));
    mdo n2 <- mread (λ s, size (t_sth_init s));
    mdo n3 <- mread (λ s, size (t_acc_init s));
    MRet (Z.eqb (Z.of_nat (n1 + n2 + n3)) (gc_total_logger cfg + gc_total_ca cfg))))).

(** gen.go:36-45, ReconstructPayload. *)
Definition m_reconstruct (g : gobj) : gmprog gobj :=
  mdo o <- rlocked plock (mread (λ s, obj_at (t_payload s) (mkgid (g_period g) REV_INIT (g_p0 g))));
  MRet (set_payload3 g o).

(** gen.go:11-28, Generate_Gossip_Object_FRAG. *)
Definition m_generate_frag (g : gobj) : gmprog gobj :=
  match cc_thr_sign cc (signed_msg g) with
  | None => MCrash NilDeref
  | Some sf =>
      let fr := frag_of cfg g (sigfrag_string sf) in
      mdo _ <- mmodify (λ s, add_trace s [EvSigned g fr]);
      MRet fr
  end.

(** gen.go:47-80, Generate_Gossip_Object_FULL. *)
Definition m_generate_full (l : list gobj) (ty : string) : gmprog gobj :=
  match cc_thr_aggregate cc (map (λ g, fst (sigfrag_from_string (g_s0 g))) l) with
  | None => MCrash NilDeref
  | Some ts =>
      match l with
      | [] => MCrash BadIndex
      | g0 :: _ =>
          mdo now <- mread (λ s, (k_period s, k_stamp s));
          MRet (mkobj CTNG_APPLICATION now.1 ty "" (map g_signer l) (thrsig_string ts) "" now.2 "bls"
                      (g_p0 g0) (g_p1 g0) (g_p2 g0))
      end
  end.

(** gossiper_server.go:449-533, Send_obj_to_Gossipers, and 534-560, Send_to_Monitor. *)
Definition m_send_to_gossipers (g : gobj) : gmprog unit :=
  mmodify (λ s, add_trace s (map (λ url, ToGossiper url (outgoing cfg g).1 (outgoing cfg g).2) (gc_neighbours cfg))).
Definition m_send_to_monitor (g : gobj) : gmprog unit :=
  mmodify (λ s, add_trace s [ToMonitor (gc_owner cfg) g]).

(** Interface.go:43-52, SavePayload. *)
Definition m_save_payload (g : gobj) : gmprog unit :=
  match verify cc g with
  | Panics => MCrash NilDeref
  | Reject => mskip
  | Accept => wlocked plock (mmodify (λ s, set_payload s (<[get_id g := g]> (t_payload s))))
  end.

(** Interface.go:184-188 and 218-222. *)
Definition m_add_blacklist (e : string) : gmprog unit :=
  mdo b <- m_in_blacklist e;
  mwhen (negb b) (wlocked block (mmodify (λ s, set_black s ({[e]} ∪ t_black s)))).

(** Interface.go:144-147 etc. *)
Definition m_note_init_convergence : gmprog unit :=
  mdo b <- m_is_init_convergent;
  mwhen b (mmodify (λ s, set_conv_init s (k_second s))).

(** Interface.go:136-143: duplicate test and insertion under one lock.  True: stored. *)
Definition m_insert (k : okind) (g : gobj) : gmprog bool :=
  wlocked (tlock k) (
    mdo dup <- m_dup_obj k g;
    if dup : bool then MRet false else
    mmodify (λ s, add_trace (set_tbl s k (<[get_id g := g]> (get_tbl s k))) [EvStored g]) >>>>
    MRet true).

(** Interface.go:125-225, Store_gossip_object. *)
Definition m_store (g : gobj) : gmprog bool :=
  match verify cc g with
  | Panics => MCrash NilDeref
  | Reject => MRet false
  | Accept =>
      match obj_kind g with
      | KObj (OInit f) =>
          mdo ok <- m_insert (OInit f) g;
          if negb ok then MRet false else
          m_note_init_convergence >>>> MRet true
      | KObj OCon =>
          mdo ok <- m_insert OCon g;
          if negb ok then MRet false else
          m_add_blacklist (g_p0 g) >>>>
          m_note_init_convergence >>>> MRet true
      | KFrag f =>
          wlocked (flock f) (
            mdo l <- mread (λ s, get_object_list s (get_id g) f);
            mmodify (λ s, add_trace (set_frags s f (<[get_id g := (l ++ [g])%list]> (get_frags s f))) [EvStored g])) >>>>
          MRet true
      | KObj (OFull f) =>
          wlocked (tlock (OFull f)) (mmodify (λ s, add_trace (set_tbl s (OFull f) (<[get_id g := g]> (get_tbl s (OFull f)))) [EvStored g])) >>>>
          mwhen (bool_decide (f = Acc)) (m_add_blacklist (g_p0 g)) >>>>
          MRet true
      | KUnknown => MRet true
      end
  end.

(** Interface.go:227-256, Read_and_Store_If_Needed: the length is read twice, then the list again before the longer one is written. *)
Definition m_read_and_store (f : fam) (g : gobj) : gmprog nat :=
  wlocked (flock f) (
    mdo before <- mread (λ s, length (get_object_list s (get_id g) f));
    mdo n <- MAct (λ s, let n := length (get_object_list s (get_id g) f) in
                        (if Nat.ltb n T then s else add_trace s [EvBefore (get_id g) before], n)) MRet;
    if Nat.ltb n T then
      mdo l <- mread (λ s, get_object_list s (get_id g) f);
      mmodify (λ s, add_trace (set_frags s f (<[get_id g := (l ++ [g])%list]> (get_frags s f))) [EvBefore (get_id g) before]) >>>>
      MRet before
    else MRet before).

Section handlers.
Context (rec : gobj -> gmprog unit).

(** gossiper_server.go:210-251, Handle_STH_INIT, and 253-292, Handle_REV_INIT. *)
Definition m_handle_init (f : fam) (g : gobj) : gmprog unit :=
  mdo n1 <- m_obj_count (get_id g) (OFull f);
  if Nat.ltb 0 n1 then mskip else
  mdo n2 <- m_frag_count (get_id g) f;
  if Nat.leb T n2 then mskip else
  mdo mal <- m_is_malicious f g;
  if mal : bool then
    mdo o1 <- m_get_object (get_id g) (OInit f);
    mdo now <- mread (λ s, (k_period s, k_stamp s));
    rec (generate_con now o1 g)
  else
    mdo proceed <- m_store g;
    if negb proceed then mskip else
    m_send_to_gossipers g >>>>
    m_send_to_monitor g >>>>
    mfork (SignLater g).

(** gossiper_server.go:294-316, Handle_ACC_INIT. *)
Definition m_handle_acc_init (g : gobj) : gmprog unit :=
  mdo n1 <- m_obj_count (get_id g) (OFull Acc);
  if Nat.ltb 0 n1 then mskip else
  mdo n2 <- m_frag_count (get_id g) Acc;
  if Nat.leb T n2 then mskip else
  mdo proceed <- m_store g;
  if negb proceed then mskip else
  mdo b <- m_in_blacklist (g_p0 g);
  if b : bool then mskip else
  mdo fr <- m_generate_frag g;
  rec fr.

(** gossiper_server.go:318-329, Handle_CON_INIT. *)
Definition m_handle_con (g : gobj) : gmprog unit :=
  mdo n <- m_obj_count (get_id g) OCon;
  if Nat.eqb n 0 then
    mdo proceed <- m_store g;
    if negb proceed then mskip else
    m_send_to_gossipers g >>>>
    m_send_to_monitor g
  else mskip.

(** gossiper_server.go:331-363, Handle_OBJ_FRAG. *)
Definition m_handle_frag (f : fam) (g : gobj) : gmprog unit :=
  mdo n <- m_obj_count (get_id g) (OFull f);
  if Nat.ltb 0 n then mskip else
  mdo before <- m_read_and_store f g;
  (if Nat.eqb (S before) T then
     mdo l <- m_get_list (get_id g) f;
     mdo full <- m_generate_full l (target_type g);
     mmodify (λ s, add_trace s [EvFull full]) >>>>
     rec full
   else mskip) >>>>
  mwhen (Nat.ltb before T) (m_send_to_gossipers g).

(** gossiper_server.go:365-380, Handle_OBJ_FULL. *)
Definition m_handle_full (f : fam) (g : gobj) : gmprog unit :=
  mdo b <- m_in_blacklist (g_p0 g);
  if b : bool then mskip else
  mdo n <- m_obj_count (get_id g) (OFull f);
  (if Nat.eqb n 0 then
     mdo _ <- m_store g;
     m_send_to_monitor g
   else mskip) >>>>
  mdo conv <- m_is_convergent;
  mwhen conv (mmodify (λ s, set_conv s (k_second s))).

(** gossiper_server.go:180-208, Handle_Gossip_object. *)
Definition m_handle_body (g : gobj) : gmprog unit :=
  mdo dup <- m_is_duplicate g;
  if dup : bool then mskip else
  mdo b <- m_in_blacklist (g_p0 g);
  if b : bool then mskip else
  match obj_kind g with
  | KObj (OInit Sth) => m_handle_init Sth g
  | KObj (OInit Rev) => m_handle_init Rev g
  | KObj (OInit Acc) => m_handle_acc_init g
  | KObj OCon => m_handle_con g
  | KFrag f => m_handle_frag f g
  | KObj (OFull f) => m_handle_full f g
  | KUnknown => mskip
  end.
End handlers.

(** The recursion, as in Gossiper.v. *)
Fixpoint m_handle_n (n : nat) (g : gobj) : gmprog unit :=
  match n with
  | O => MCrash OutOfFuel
  | S n => m_handle_body (m_handle_n n) g
  end.
Definition m_handle : gobj -> gmprog unit := m_handle_n 3.

(** gossiper_server.go:242-248, 283-289: the signing timer. *)
Definition m_start_task (t : gtask) : gmprog unit :=
  match t with
  | SignLater g =>
      mdo b <- m_in_blacklist (g_p0 g);
      if b : bool then mskip else
      mdo fr <- m_generate_frag g;
      m_handle fr
  end.

(** gossiper_server.go:146-178, Gossip_object_handler. *)
Definition m_object_handler (bytecount : Z) (g : gobj) : gmprog unit :=
  mwhen (Z.ltb (gc_opt_threshold cfg) bytecount && bool_decide (obj_kind g = KObj (OInit Rev)))
        (m_save_payload g) >>>>
  if gc_opt_mode cfg && bool_decide (obj_kind g = KFrag Rev) then
    mdo g' <- m_reconstruct g;
    m_handle g'
  else m_handle g.

(** Interface.go:54-68, SearchPayload, and gossiper_server.go:49-96, Gossip_notification_handler. *)
Definition m_notification_handler (n : notification) : gmprog unit :=
  mdo o <- rlocked plock (mread (λ s, t_payload s !! mkgid (n_period n) REV_INIT (n_entity n)));
  mwhen (negb (match o with None => false | Some o => bool_decide (obj_hash (P := P) o = n_hash n) end))
    (mmodify (λ s, add_trace s
       [ToGossiper (n_sender n) "/gossip/new_payload_request"
          (MNote (mknote (cc_self cc) (n_period n) (n_type n) (n_entity n) (n_hash n)))])).

(** Interface.go:70-78, GetREVrequested (is there an entry; if so read it), and gossiper_server.go:98-144, Gossip_request_handler. *)
Definition m_request_handler (n : notification) : gmprog unit :=
  mdo o <- rlocked plock (
    mdo here <- mread (λ s, bool_decide (is_Some (t_payload s !! mkgid (n_period n) REV_INIT (n_entity n))));
    if here : bool then mread (λ s, obj_at (t_payload s) (mkgid (n_period n) REV_INIT (n_entity n))) else MRet zero_obj);
  mwhen (negb (is_empty (g_p0 o)))
    (mmodify (λ s, add_trace s [ToGossiper (n_sender n) "/gossip/rev_init" (MObj o)])).

(** Requests that deliver objects from [Dl]; the machine. *)
Inductive m_request (Dl : gobj -> Prop) : gmprog unit -> Prop :=
| mr_obj n g : Dl g -> m_request Dl (m_object_handler n g)
| mr_note n : m_request Dl (m_notification_handler n)
| mr_req n : m_request Dl (m_request_handler n).

(** Interface.go:80-116, Save, as one step as in Gossiper.v, and 629-639, WipeStorage: overwriting a struct sets its maps and then its locks. *)
Definition m_periodic : gmprog unit :=
  mmodify (λ s, if entry_nonzero (entry_of s) then set_log s (<[e_period (entry_of s) := entry_of s]> (t_log s)) else s) >>>>
  mdo con <- MAct replace_storage MRet;
  msync (Replace storage_locks) >>>>
  mmodify (λ s, set_tbl s OCon con) >>>>
  mdo bl <- MAct (λ s, (set_black s ∅, t_black s)) MRet;
  msync (Replace [block]) >>>>
  mmodify (λ s, set_black s bl).

Definition fine_steps (Dl : gobj -> Prop) : fpool gst gtask -> fpool gst gtask -> Prop := fsteps m_start_task (m_request Dl) clock_step.
(** The same with the task at the end of a period. *)
Definition fine_steps_all (Dl : gobj -> Prop) : fpool gst gtask -> fpool gst gtask -> Prop :=
  fsteps m_start_task (λ m, m_request Dl m \/ m = m_periodic) clock_step.
Definition fine_init (period second stamp : string) : fpool gst gtask := mkfpool (init_gst period second stamp) ∅ [] [] [] false.
End fine.
