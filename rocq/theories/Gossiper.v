(** gossiper/*.go: state and handlers of one gossiper. *)
From Verif Require Import Bytes Hex Base64 Json Types Crypto Verify Prog.
Open Scope string_scope.

(* ---------------------------------------------------------------- *)
(** * State *)

(** gossiper/types.go:108-114, Gossip_Notification. *)
Record notification : Type := mknote {
  n_sender : string;
  n_period : string;
  n_type : string;
  n_entity : string;
  n_hash : string
}.

(** json.Marshal(Gossip_Notification); Objhash []byte is base64 text. *)
Definition note_json (n : notification) : json :=
  JObj [("sender", JStr (n_sender n)); ("period", JStr (n_period n)); ("type", JStr (n_type n));
        ("entity_url", JStr (n_entity n)); ("objhash", JStr (b64_encode (n_hash n)))].

Definition note_marshal (n : notification) : string := print_json (note_json n).

Definition note_field (n : notification) (kv : string * json) : option notification :=
  let '(k, v) := kv in
  let k := lower_str k in
  let '(mknote a b c d e) := n in
  if String.eqb k "sender" then x ← dec_string a v; Some (mknote x b c d e)
  else if String.eqb k "period" then x ← dec_string b v; Some (mknote a x c d e)
  else if String.eqb k "type" then x ← dec_string c v; Some (mknote a b x d e)
  else if String.eqb k "entity_url" then x ← dec_string d v; Some (mknote a b c x e)
  else if String.eqb k "objhash" then
    match v with
    | JNull => Some (mknote a b c d "")
    | JStr s => x ← b64_decode s; Some (mknote a b c d x)
    | _ => None
    end
  else Some n.

Fixpoint note_fields (n : notification) (l : list (string * json)) : option notification :=
  match l with
  | [] => Some n
  | kv :: r => match note_field n kv with Some n' => note_fields n' r | None => None end
  end.

(** json.NewDecoder(r.Body).Decode(&notification) (gossiper_server.go:52, 100). *)
Definition note_decode (s : string) : option notification :=
  match decode_json s with
  | Some (JObj l) => note_fields (mknote "" "" "" "" "") l
  | Some JNull => Some (mknote "" "" "" "" "")
  | _ => None
  end.

(** What the gossiper posts to other parties. *)
Inductive gmsg := MObj (g : gobj) | MNote (n : notification).

(** The trace.  [ToGossiper] and [ToMonitor] are the HTTP posts of
    gossiper/gossiper_server.go:509, 79, 127 and 548; [EvSigned]
    records a call of ThresholdSign (gossiper/gen.go:12), [EvFull] the message "Generated full
    object" (gossiper_server.go:356), [EvBefore] the value returned by
    Read_and_Store_If_Needed (Interface.go:227-256), [EvStored] an object
    written by Store_gossip_object and [EvWiped] the replacement of the storage by
    WipeStorage (Interface.go:632). *)
Inductive gevt :=
| ToGossiper (url endpoint : string) (m : gmsg)
| ToMonitor (url : string) (g : gobj)
| EvSigned (g : gobj) (frag : gobj)
| EvFull (g : gobj)
| EvBefore (id : gid) (n : nat)
| EvStored (g : gobj)
| EvWiped.

(** gossiper/types.go:88-106, Gossiper_log_entry, without the traffic counters and
    Timerlist, which are measurements only and not modelled. *)
Record log_entry : Type := mkentry {
  e_period : Z; e_conv : string; e_conv_init : string;
  e_sth_init : nat; e_rev_init : nat; e_acc_init : nat; e_con_init : nat;
  e_sth_frag : nat; e_rev_frag : nat; e_acc_frag : nat;
  e_sth_full : nat; e_rev_full : nat; e_acc_full : nat; e_blacklist : nat
}.

Notation otbl := (gmap gid gobj).
Notation ftbl := (gmap gid (list gobj)).

(** gossiper/types.go:27-86: Gossip_object_storage, Gossip_blacklist, the
    gossiper log and convergence times of GossiperContext; the wall clock as
    read by util.GetCurrentPeriod, GetCurrentSecond and GetCurrentTimestamp; and the
    trace.  BLACKLIST_PERM map[string]bool only ever holds true and is
    tested for key presence, so it is a set. *)
Record gst : Type := mkgst {
  t_sth_init : otbl; t_rev_init : otbl; t_acc_init : otbl; t_con_init : otbl;
  t_sth_frag : ftbl; t_rev_frag : ftbl; t_acc_frag : ftbl;
  t_sth_full : otbl; t_rev_full : otbl; t_acc_full : otbl;
  t_payload : otbl;
  t_black : gset string;
  t_log : gmap Z log_entry;
  t_conv : string; t_conv_init : string;
  k_period : string; k_second : string; k_stamp : string;
  t_trace : list gevt
}.

(** gossiper/Init.go:12-49: empty storage, blacklist and log. *)
Definition init_gst (period second stamp : string) : gst :=
  mkgst ∅ ∅ ∅ ∅ ∅ ∅ ∅ ∅ ∅ ∅ ∅ ∅ ∅ "" "" period second stamp [].

(** The map holding objects of a given kind. *)
Definition get_tbl (s : gst) (k : okind) : otbl :=
  match k with
  | OInit Sth => t_sth_init s | OInit Rev => t_rev_init s | OInit Acc => t_acc_init s
  | OCon => t_con_init s
  | OFull Sth => t_sth_full s | OFull Rev => t_rev_full s | OFull Acc => t_acc_full s
  end.

Definition get_frags (s : gst) (f : fam) : ftbl :=
  match f with Sth => t_sth_frag s | Rev => t_rev_frag s | Acc => t_acc_frag s end.

Definition set_tbl (s : gst) (k : okind) (m : otbl) : gst :=
  let '(mkgst a b c d e f g h i j p bl lg cv ci kp ks kt tr) := s in
  match k with
  | OInit Sth => mkgst m b c d e f g h i j p bl lg cv ci kp ks kt tr
  | OInit Rev => mkgst a m c d e f g h i j p bl lg cv ci kp ks kt tr
  | OInit Acc => mkgst a b m d e f g h i j p bl lg cv ci kp ks kt tr
  | OCon => mkgst a b c m e f g h i j p bl lg cv ci kp ks kt tr
  | OFull Sth => mkgst a b c d e f g m i j p bl lg cv ci kp ks kt tr
  | OFull Rev => mkgst a b c d e f g h m j p bl lg cv ci kp ks kt tr
  | OFull Acc => mkgst a b c d e f g h i m p bl lg cv ci kp ks kt tr
  end.

Definition set_frags (s : gst) (fm : fam) (m : ftbl) : gst :=
  let '(mkgst a b c d e f g h i j p bl lg cv ci kp ks kt tr) := s in
  match fm with
  | Sth => mkgst a b c d m f g h i j p bl lg cv ci kp ks kt tr
  | Rev => mkgst a b c d e m g h i j p bl lg cv ci kp ks kt tr
  | Acc => mkgst a b c d e f m h i j p bl lg cv ci kp ks kt tr
  end.

Definition set_payload (s : gst) (m : otbl) : gst :=
  let '(mkgst a b c d e f g h i j p bl lg cv ci kp ks kt tr) := s in
  mkgst a b c d e f g h i j m bl lg cv ci kp ks kt tr.

Definition set_black (s : gst) (x : gset string) : gst :=
  let '(mkgst a b c d e f g h i j p bl lg cv ci kp ks kt tr) := s in
  mkgst a b c d e f g h i j p x lg cv ci kp ks kt tr.

Definition set_log (s : gst) (x : gmap Z log_entry) : gst :=
  let '(mkgst a b c d e f g h i j p bl lg cv ci kp ks kt tr) := s in
  mkgst a b c d e f g h i j p bl x cv ci kp ks kt tr.

Definition set_conv (s : gst) (x : string) : gst :=
  let '(mkgst a b c d e f g h i j p bl lg cv ci kp ks kt tr) := s in
  mkgst a b c d e f g h i j p bl lg x ci kp ks kt tr.

Definition set_conv_init (s : gst) (x : string) : gst :=
  let '(mkgst a b c d e f g h i j p bl lg cv ci kp ks kt tr) := s in
  mkgst a b c d e f g h i j p bl lg cv x kp ks kt tr.

Definition set_clock (s : gst) (period second stamp : string) : gst :=
  let '(mkgst a b c d e f g h i j p bl lg cv ci kp ks kt tr) := s in
  mkgst a b c d e f g h i j p bl lg cv ci period second stamp tr.

Definition add_trace (s : gst) (l : list gevt) : gst :=
  let '(mkgst a b c d e f g h i j p bl lg cv ci kp ks kt tr) := s in
  mkgst a b c d e f g h i j p bl lg cv ci kp ks kt (tr ++ l)%list.

(** A task created by time.AfterFunc in Handle_STH_INIT / Handle_REV_INIT
    (gossiper_server.go:249, 290): sign this object after the waiting
    time. *)
Inductive gtask := SignLater (g : gobj).

Notation gprog := (prog gst gtask).

Section gossiper.
Context {P : prims}.

(** The fields of GossiperContext that do not change while running:
    crypto configuration, Connected_Gossipers, Owner_URL, Total_Logger,
    Total_CA, Optimization_threshold, Optimization_mode. *)
Record gconf : Type := mkgconf {
  gc_crypto : cconf P;
  gc_neighbours : list string;
  gc_owner : string;
  gc_total_logger : Z;
  gc_total_ca : Z;
  gc_opt_threshold : Z;
  gc_opt_mode : bool
}.

Context (cfg : gconf).
Notation cc := (gc_crypto cfg).
Notation T := (cc_threshold cc).

(* ---------------------------------------------------------------- *)
(** * Queries (each under one read lock) *)

(** Interface.go:118-123, InBlacklistPerm. *)
Definition in_blacklist (s : gst) (e : string) : bool := bool_decide (e ∈ t_black s).

(** Go's m[id] on map[Gossip_ID]Gossip_object: the zero object if absent. *)
Definition obj_at (m : otbl) (i : gid) : gobj :=
  match m !! i with Some o => o | None => zero_obj end.

(** Go's m[id] on map[Gossip_ID][]Gossip_object: nil if absent. *)
Definition frags_at (m : ftbl) (i : gid) : list gobj :=
  match m !! i with Some l => l | None => [] end.

(** Interface.go:529-561, GetObject. *)
Definition get_object (s : gst) (i : gid) (k : okind) : gobj := obj_at (get_tbl s k) i.

(** Interface.go:436-453, GetObjectList. *)
Definition get_object_list (s : gst) (i : gid) (f : fam) : list gobj := frags_at (get_frags s f) i.

(** Interface.go:455-527, GetGossipObjectCount, object tables. *)
Definition obj_count (s : gst) (i : gid) (k : okind) : nat :=
  match get_tbl s k !! i with Some _ => 1 | None => 0 end.

(** Interface.go:489-500, GetGossipObjectCount, fragment tables. *)
Definition frag_count (s : gst) (i : gid) (f : fam) : nat := length (get_object_list s i f).

(** Interface.go:257-324, DupCheckInLock, and Interface.go:325-412,
    IsDuplicate_G: the same test with and without taking the lock. *)
Definition is_duplicate (s : gst) (g : gobj) : bool :=
  match obj_kind g with
  | KObj k =>
      match get_tbl s k !! get_id g with
      | Some o => same_sig o g
      | None => false
      end
  | KFrag f => existsb (λ v, same_sig v g) (get_object_list s (get_id g) f)
  | KUnknown => false
  end.

(** Interface.go:613-627, IsMalicious. *)
Definition is_malicious (s : gst) (g : gobj) : bool :=
  let test k :=
    let o := get_object s (get_id g) k in
    bool_decide (g_signer g = g_signer o) && negb (same_sig g o) in
  match obj_kind g with
  | KObj (OInit Sth) => test (OInit Sth)
  | KObj (OInit Rev) => test (OInit Rev)
  | _ => false
  end.

(** Interface.go:580-595, IsConvergent. *)
Definition is_convergent (s : gst) : bool :=
  Z.eqb (Z.of_nat (size (t_rev_full s) + size (t_sth_full s) + size (t_acc_full s) + size (t_con_init s)))
        (gc_total_logger cfg + gc_total_ca cfg).

(** Interface.go:597-611, IsInitConvergent. *)
Definition is_init_convergent (s : gst) : bool :=
  Z.eqb (Z.of_nat (size (t_rev_init s) + size (t_sth_init s) + size (t_acc_init s)))
        (gc_total_logger cfg + gc_total_ca cfg).

(** Interface.go:30-34, ComputeobjHash. *)
Definition obj_hash (g : gobj) : string :=
  h_sha256 P (g_s0 g ++ g_signer g ++ g_period g ++ g_type g ++ g_p0 g ++ g_p1 g ++ g_p2 g).

(* ---------------------------------------------------------------- *)
(** * Generating objects (gossiper/gen.go) *)

(** gen.go:30-34, Remove_Payload. *)
Definition remove_payload (g : gobj) : gobj :=
  let '(mkobj a p t s ss s0 s1 ti sc p0 _ _) := g in mkobj a p t s ss s0 s1 ti sc p0 "" "".

Definition set_payload3 (g o : gobj) : gobj :=
  let '(mkobj a p t s ss s0 s1 ti sc _ _ _) := g in mkobj a p t s ss s0 s1 ti sc (g_p0 o) (g_p1 o) (g_p2 o).

(** gen.go:36-45, ReconstructPayload (zero payload if nothing is cached). *)
Definition reconstruct_payload (s : gst) (g : gobj) : gobj :=
  set_payload3 g (obj_at (t_payload s) (mkgid (g_period g) REV_INIT (g_p0 g))).

(** gen.go:82-93, Generate_CON_INIT; [now] is (period, timestamp). *)
Definition generate_con (now : string * string) (o1 o2 : gobj) : gobj :=
  mkobj CTNG_APPLICATION now.1 CON_INIT "" [] (g_s0 o1) (g_s0 o2) now.2 ""
        (g_p0 o1) (signed_msg o1) (signed_msg o2).

(** gen.go:11-28: the fragment object made from INIT object [g] and
    signature string [sg].  Types other than the three INIT types are kept. *)
Definition frag_of (g : gobj) (sg : string) : gobj :=
  let '(mkobj a p t _ ss _ s1 ti _ p0 p1 p2) := g in
  let t' := match kind_of t with KObj (OInit f) => frag_type f | _ => t end in
  mkobj a p t' (cc_self cc) ss sg s1 ti "bls" p0 p1 p2.

(** gen.go:11-28, Generate_Gossip_Object_FRAG.  If the threshold scheme
    is unsupported the zero SigFragment's String dereferences a nil pointer. *)
Definition generate_frag (g : gobj) : gprog gobj :=
  match cc_thr_sign cc (signed_msg g) with
  | None => Crash NilDeref
  | Some sf =>
      let fr := frag_of g (sigfrag_string sf) in
      do _ <- pmodify (λ s, add_trace s [EvSigned g fr]);
      Ret fr
  end.

(** gen.go:47-80, Generate_Gossip_Object_FULL.  A failed aggregation
    leaves a nil Sign, so ThresholdSig.String panics; g_list[0] panics on an empty
    list. *)
Definition generate_full (l : list gobj) (ty : string) : gprog gobj :=
  match cc_thr_aggregate cc (map (λ g, fst (sigfrag_from_string (g_s0 g))) l) with
  | None => Crash NilDeref
  | Some ts =>
      match l with
      | [] => Crash BadIndex
      | g0 :: _ =>
          do now <- pread (λ s, (k_period s, k_stamp s));
          Ret (mkobj CTNG_APPLICATION now.1 ty "" (map g_signer l) (thrsig_string ts) "" now.2 "bls"
                     (g_p0 g0) (g_p1 g0) (g_p2 g0))
      end
  end.

(* ---------------------------------------------------------------- *)
(** * Sending *)

(** The endpoint chosen by the switch of gossiper_server.go:480-501. *)
Definition endpoint_of (k : kind) : string :=
  match k with
  | KObj (OInit Sth) => "/gossip/sth_init" | KObj (OInit Rev) => "/gossip/rev_init"
  | KObj (OInit Acc) => "/gossip/acc_init" | KObj OCon => "/gossip/con_init"
  | KFrag Sth => "/gossip/sth_frag" | KFrag Rev => "/gossip/rev_frag" | KFrag Acc => "/gossip/acc_frag"
  | KObj (OFull Sth) => "/gossip/sth_full" | KObj (OFull Rev) => "/gossip/rev_full"
  | KObj (OFull Acc) => "/gossip/acc_full"
  | KUnknown => ""
  end.

(** len(json.Marshal(obj)) > Optimization_threshold. *)
Definition oversized (g : gobj) : bool := Z.ltb (gc_opt_threshold cfg) (Z.of_nat (len (gobj_marshal g))).

(** gossiper_server.go:449-502: the endpoint and message for an object. *)
Definition outgoing (g : gobj) : string * gmsg :=
  match obj_kind g with
  | KObj (OInit Rev) =>
      if oversized g then
        ("/gossip/new_payload_notification",
         MNote (mknote (cc_self cc) (g_period g) (g_type g) (g_p0 g) (obj_hash g)))
      else (endpoint_of (obj_kind g), MObj g)
  | KFrag Rev =>
      (endpoint_of (obj_kind g), MObj (if oversized g then remove_payload g else g))
  | k => (endpoint_of k, MObj g)
  end.

(** gossiper_server.go:449-533, Send_obj_to_Gossipers: one post per
    connected gossiper.  The random delay before each post is left to the
    network. *)
Definition send_to_gossipers (g : gobj) : gprog unit :=
  pmodify (λ s, add_trace s (map (λ url, ToGossiper url (outgoing g).1 (outgoing g).2) (gc_neighbours cfg))).

(** gossiper_server.go:534-560, Send_to_Monitor. *)
Definition send_to_monitor (g : gobj) : gprog unit :=
  pmodify (λ s, add_trace s [ToMonitor (gc_owner cfg) g]).

(* ---------------------------------------------------------------- *)
(** * Storing (gossiper/Interface.go) *)

(** Interface.go:43-52, SavePayload. *)
Definition save_payload (g : gobj) : gprog unit :=
  match verify cc g with
  | Panics => Crash NilDeref
  | Reject => pskip
  | Accept => pmodify (λ s, set_payload s (<[get_id g := g]> (t_payload s)))
  end.

(** Interface.go:184-188 and 218-222: add to the permanent blacklist
    unless present (a read lock, then a write lock). *)
Definition add_blacklist (e : string) : gprog unit :=
  do b <- pread (λ s, in_blacklist s e);
  pwhen (negb b) (pmodify (λ s, set_black s ({[e]} ∪ t_black s))).

(** Interface.go:144-147 etc.: record the INIT convergence time. *)
Definition note_init_convergence : gprog unit :=
  do b <- pread is_init_convergent;
  pwhen b (pmodify (λ s, set_conv_init s (k_second s))).

(** The locked part of an INIT/CON branch of Store_gossip_object
    (Interface.go:136-143): duplicate test and insertion.  True: stored. *)
Definition insert_unless_dup (k : okind) (g : gobj) (s : gst) : gst * bool :=
  if is_duplicate s g then (s, false)
  else (add_trace (set_tbl s k (<[get_id g := g]> (get_tbl s k))) [EvStored g], true).

(** Interface.go:125-225, Store_gossip_object.  Timerlist (132-133) is a
    measurement and not modelled. *)
Definition store (g : gobj) : gprog bool :=
  match verify cc g with
  | Panics => Crash NilDeref
  | Reject => Ret false
  | Accept =>
      match obj_kind g with
      | KObj (OInit f) =>
          do ok <- patomic (insert_unless_dup (OInit f) g);
          if negb ok then Ret false else
          note_init_convergence >>> Ret true
      | KObj OCon =>
          do ok <- patomic (insert_unless_dup OCon g);
          if negb ok then Ret false else
          add_blacklist (g_p0 g) >>>
          note_init_convergence >>> Ret true
      | KFrag f =>
          pmodify (λ s, add_trace (set_frags s f (<[get_id g := (get_object_list s (get_id g) f ++ [g])%list]> (get_frags s f)))
                                  [EvStored g]) >>>
          Ret true
      | KObj (OFull f) =>
          pmodify (λ s, add_trace (set_tbl s (OFull f) (<[get_id g := g]> (get_tbl s (OFull f)))) [EvStored g]) >>>
          pwhen (bool_decide (f = Acc)) (add_blacklist (g_p0 g)) >>>
          Ret true
      | KUnknown => Ret true
      end
  end.

(** Interface.go:227-256, Read_and_Store_If_Needed: one critical section. *)
Definition read_and_store (f : fam) (g : gobj) (s : gst) : gst * nat :=
  let l := get_object_list s (get_id g) f in
  let s' := if Nat.ltb (length l) T then set_frags s f (<[get_id g := (l ++ [g])%list]> (get_frags s f)) else s in
  (add_trace s' [EvBefore (get_id g) (length l)], length l).

(* ---------------------------------------------------------------- *)
(** * Handlers (gossiper/gossiper_server.go).  [rec] is the recursive
      call of Handle_Gossip_object. *)

Section handlers.
Context (rec : gobj -> gprog unit).

(** gossiper_server.go:210-251, Handle_STH_INIT, and 253-292,
    Handle_REV_INIT: the same code with the tables of the family. *)
Definition handle_init (f : fam) (g : gobj) : gprog unit :=
  do n1 <- pread (λ s, obj_count s (get_id g) (OFull f));
  if Nat.ltb 0 n1 then pskip else
  do n2 <- pread (λ s, frag_count s (get_id g) f);
  if Nat.leb T n2 then pskip else
  do mal <- pread (λ s, is_malicious s g);
  if mal : bool then
    do o1 <- pread (λ s, get_object s (get_id g) (OInit f));
    do now <- pread (λ s, (k_period s, k_stamp s));
    rec (generate_con now o1 g)
  else
    do proceed <- store g;
    if negb proceed then pskip else
    send_to_gossipers g >>>
    send_to_monitor g >>>
    pfork (SignLater g).

(** gossiper_server.go:294-316, Handle_ACC_INIT. *)
Definition handle_acc_init (g : gobj) : gprog unit :=
  do n1 <- pread (λ s, obj_count s (get_id g) (OFull Acc));
  if Nat.ltb 0 n1 then pskip else
  do n2 <- pread (λ s, frag_count s (get_id g) Acc);
  if Nat.leb T n2 then pskip else
  do proceed <- store g;
  if negb proceed then pskip else
  do b <- pread (λ s, in_blacklist s (g_p0 g));
  if b : bool then pskip else
  do fr <- generate_frag g;
  rec fr.

(** gossiper_server.go:318-329, Handle_CON_INIT. *)
Definition handle_con (g : gobj) : gprog unit :=
  do n <- pread (λ s, obj_count s (get_id g) OCon);
  if Nat.eqb n 0 then
    do proceed <- store g;
    if negb proceed then pskip else
    send_to_gossipers g >>>
    send_to_monitor g
  else pskip.

(** gossiper_server.go:331-363, Handle_OBJ_FRAG. *)
Definition handle_frag (f : fam) (g : gobj) : gprog unit :=
  do n <- pread (λ s, obj_count s (get_id g) (OFull f));
  if Nat.ltb 0 n then pskip else
  do before <- patomic (read_and_store f g);
  (if Nat.eqb (S before) T then
     do l <- pread (λ s, get_object_list s (get_id g) f);
     do full <- generate_full l (target_type g);
     pmodify (λ s, add_trace s [EvFull full]) >>>
     rec full
   else pskip) >>>
  pwhen (Nat.ltb before T) (send_to_gossipers g).

(** gossiper_server.go:365-380, Handle_OBJ_FULL: the result of Store is
    ignored. *)
Definition handle_full (f : fam) (g : gobj) : gprog unit :=
  do b <- pread (λ s, in_blacklist s (g_p0 g));
  if b : bool then pskip else
  do n <- pread (λ s, obj_count s (get_id g) (OFull f));
  (if Nat.eqb n 0 then
     do _ <- store g;
     send_to_monitor g
   else pskip) >>>
  do conv <- pread is_convergent;
  pwhen conv (pmodify (λ s, set_conv s (k_second s))).

(** gossiper_server.go:180-208, Handle_Gossip_object. *)
Definition handle_body (g : gobj) : gprog unit :=
  do dup <- pread (λ s, is_duplicate s g);
  if dup : bool then pskip else
  do b <- pread (λ s, in_blacklist s (g_p0 g));
  if b : bool then pskip else
  match obj_kind g with
  | KObj (OInit Sth) => handle_init Sth g
  | KObj (OInit Rev) => handle_init Rev g
  | KObj (OInit Acc) => handle_acc_init g
  | KObj OCon => handle_con g
  | KFrag f => handle_frag f g
  | KObj (OFull f) => handle_full f g
  | KUnknown => pskip
  end.
End handlers.

(** The recursion INIT -> CON, INIT -> FRAG -> FULL unfolded with fuel. *)
Fixpoint handle_n (n : nat) (g : gobj) : gprog unit :=
  match n with
  | O => Crash OutOfFuel
  | S n => handle_body (handle_n n) g
  end.

Definition handle : gobj -> gprog unit := handle_n 3.

(** The function f given to time.AfterFunc (gossiper_server.go:242-248,
    283-289). *)
Definition start_task (t : gtask) : gprog unit :=
  match t with
  | SignLater g =>
      do b <- pread (λ s, in_blacklist s (g_p0 g));
      if b : bool then pskip else
      do fr <- generate_frag g;
      handle fr
  end.

(** gossiper_server.go:146-178, Gossip_object_handler, after a successful
    decode; [bytecount] is r.ContentLength. *)
Definition object_handler (bytecount : Z) (g : gobj) : gprog unit :=
  pwhen (Z.ltb (gc_opt_threshold cfg) bytecount && bool_decide (obj_kind g = KObj (OInit Rev)))
        (save_payload g) >>>
  if gc_opt_mode cfg && bool_decide (obj_kind g = KFrag Rev) then
    do g' <- pread (λ s, reconstruct_payload s g);
    handle g'
  else handle g.

(** Interface.go:54-68, SearchPayload, and gossiper_server.go:49-96,
    Gossip_notification_handler: ask the sender for the object unless the cached one
    has the announced hash. *)
Definition notification_handler (n : notification) : gprog unit :=
  do found <- pread (λ s, match t_payload s !! mkgid (n_period n) REV_INIT (n_entity n) with
                          | None => false
                          | Some o => bool_decide (obj_hash o = n_hash n)
                          end);
  pwhen (negb found)
    (pmodify (λ s, add_trace s
       [ToGossiper (n_sender n) "/gossip/new_payload_request"
          (MNote (mknote (cc_self cc) (n_period n) (n_type n) (n_entity n) (n_hash n)))])).

(** Interface.go:70-78, GetREVrequested, and gossiper_server.go:98-144,
    Gossip_request_handler. *)
Definition request_handler (n : notification) : gprog unit :=
  do o <- pread (λ s, obj_at (t_payload s) (mkgid (n_period n) REV_INIT (n_entity n)));
  pwhen (negb (is_empty (g_p0 o)))
    (pmodify (λ s, add_trace s [ToGossiper (n_sender n) "/gossip/rev_init" (MObj o)])).

(* ---------------------------------------------------------------- *)
(** * Period change *)

(** Interface.go:35-41, countFragments. *)
Definition count_fragments (m : ftbl) : nat := map_fold (λ _ l n, length l + n) 0 m.

(** Interface.go:80-104: the log entry for the current tables. *)
Definition entry_of (s : gst) : log_entry :=
  mkentry (match atoi (k_period s) with Some z => z | None => 0%Z end) (t_conv s) (t_conv_init s)
    (size (t_sth_init s)) (size (t_rev_init s)) (size (t_acc_init s)) (size (t_con_init s))
    (count_fragments (t_sth_frag s)) (count_fragments (t_rev_frag s)) (count_fragments (t_acc_frag s))
    (size (t_sth_full s)) (size (t_rev_full s)) (size (t_acc_full s)) (size (t_black s)).

(** Interface.go:105-109: some count is not zero. *)
Definition entry_nonzero (e : log_entry) : bool :=
  negb (Nat.eqb (e_sth_init e + e_rev_init e + e_acc_init e + e_con_init e + e_sth_frag e + e_rev_frag e
                 + e_acc_frag e + e_sth_full e + e_rev_full e + e_acc_full e + e_blacklist e) 0).

(** Interface.go:80-116, Save, as one step (the Go code takes no lock);
    the file on disk is a copy of the log map. *)
Definition save : gprog unit :=
  pmodify (λ s, if entry_nonzero (entry_of s)
                then set_log s (<[e_period (entry_of s) := entry_of s]> (t_log s)) else s).

(** Interface.go:631-632: the storage is replaced by empty maps; the old
    CON_INIT map is kept in a local variable. *)
Definition replace_storage (s : gst) : gst * otbl :=
  let '(mkgst a b c d e f g h i j p bl lg cv ci kp ks kt tr) := s in
  (mkgst ∅ ∅ ∅ ∅ ∅ ∅ ∅ ∅ ∅ ∅ ∅ bl lg cv ci kp ks kt (tr ++ [EvWiped])%list, d).

(** Interface.go:629-639, WipeStorage: four unsynchronised steps. *)
Definition wipe : gprog unit :=
  do con <- patomic replace_storage;
  pmodify (λ s, set_tbl s OCon con) >>>
  do bl <- patomic (λ s, (set_black s ∅, t_black s));
  pmodify (λ s, set_black s bl).

(** gossiper_server.go:571-574, the periodic function f1. *)
Definition periodic : gprog unit := save >>> wipe.

(* ---------------------------------------------------------------- *)
(** * Sequential semantics: one event at a time *)

Inductive gevent :=
| Recv (bytecount : Z) (g : gobj)   (* POST of a gossip object *)
| Notify (n : notification)          (* POST /gossip/new_payload_notification *)
| Request (n : notification)         (* POST /gossip/new_payload_request *)
| Fire (i : nat)                     (* the i-th pending timer fires *)
| Tick (period second stamp : string)(* the wall clock changes *)
| Period.                            (* Save and WipeStorage *)

Record gsys : Type := mkgsys { s_st : gst; s_tasks : list gtask; s_crashes : list crash }.

Definition init_gsys (period second stamp : string) : gsys := mkgsys (init_gst period second stamp) [] [].

(** Run a program to completion; a panic is recorded (net/http recovers
    panics of request handlers; a panic in a timer ends the process,
    which later events of the model ignore: more behaviours, not
    fewer). *)
Definition exec (p : gprog unit) (y : gsys) (ts : list gtask) : gsys :=
  let '(s', new, r) := run p (s_st y) in
  mkgsys s' (ts ++ new)%list (match r with Done _ => s_crashes y | Crashed w => w :: s_crashes y end).

Definition step (y : gsys) (e : gevent) : gsys :=
  match e with
  | Recv n g => exec (object_handler n g) y (s_tasks y)
  | Notify n => exec (notification_handler n) y (s_tasks y)
  | Request n => exec (request_handler n) y (s_tasks y)
  | Fire i =>
      match nth_error (s_tasks y) i with
      | Some t => exec (start_task t) y (take i (s_tasks y) ++ drop (S i) (s_tasks y))%list
      | None => y
      end
  | Tick p sec st => mkgsys (set_clock (s_st y) p sec st) (s_tasks y) (s_crashes y)
  | Period => exec periodic y (s_tasks y)
  end.

Definition steps (y : gsys) (l : list gevent) : gsys := fold_left step l y.

(* ---------------------------------------------------------------- *)
(** * Concurrent semantics *)

(** Programs the environment may start at any time. *)
Inductive grequest : gprog unit -> Prop :=
| req_obj n g : grequest (object_handler n g)
| req_note n : grequest (notification_handler n)
| req_req n : grequest (request_handler n)
| req_period : grequest periodic.

Definition clock_step (s s' : gst) : Prop := exists p sec st, s' = set_clock s p sec st.

Definition gpool := pool gst gtask.
Definition gpstep : gpool -> gpool -> Prop := pstep start_task grequest clock_step.
Definition gpsteps : gpool -> gpool -> Prop := psteps start_task grequest clock_step.
Definition init_pool (period second stamp : string) : gpool := mkpool (init_gst period second stamp) [] [] [].

End gossiper.

Arguments gconf : clear implicits.
