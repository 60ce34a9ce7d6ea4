(** What is said about gossiper states and traces. *)
From Verif Require Import Bytes Types Crypto Verify Prog Gossiper SpecCodec SpecVerify.
Open Scope string_scope.

Section spec.
Context {P : prims} (cfg : gconf P).
Notation cc := (gc_crypto cfg).
Notation T := (cc_threshold cc).

(** Every object in the INIT, CON and FULL tables verifies, has the type of its
    table and is stored under its own identifier. *)
Definition tables_ok (s : gst) : Prop := forall k i o,
  get_tbl s k !! i = Some o -> verify cc o = Accept /\ get_id o = i /\ g_type o = okind_type k.

(** So does every cached REV payload. *)
Definition payload_ok (s : gst) : Prop := forall i o,
  t_payload s !! i = Some o -> verify cc o = Accept /\ get_id o = i /\ g_type o = REV_INIT.

(** Every bucket holds at most Threshold fragments of its own
    identifier and type. *)
Definition buckets_ok (s : gst) : Prop := forall f i l,
  get_frags s f !! i = Some l -> length l <= T /\ forall o, In o l -> get_id o = i /\ g_type o = frag_type f.
End spec.

(** Statements that are relayed: STH, REV and conflict proofs, but not
    accusations. *)
Definition relayed (g : gobj) : Prop := g_type g = STH_INIT \/ g_type g = REV_INIT \/ g_type g = CON_INIT.

(** The part of a trace after the last wipe. *)
Definition since_wipe (tr : list gevt) : list gevt :=
  fold_left (λ acc e, match e with EvWiped => [] | _ => (acc ++ [e])%list end) tr [].

(** The values Read_and_Store_If_Needed returned for identifier [i]. *)
Definition befores (i : gid) (tr : list gevt) : list nat :=
  omap (λ e, match e with EvBefore j n => if decide (j = i) then Some n else None | _ => None end) tr.

(** Events that leave the gossiper. *)
Definition is_send (e : gevt) : bool :=
  match e with ToGossiper _ _ _ | ToMonitor _ _ => true | _ => false end.
Definition sent (tr : list gevt) : list gevt := List.filter is_send tr.

(** The entity an event sent to somebody is about. *)
Definition about (e : gevt) : string :=
  match e with
  | ToGossiper _ _ (MObj g) | ToMonitor _ g => g_p0 g
  | ToGossiper _ _ (MNote n) => n_entity n
  | _ => ""
  end.

(** States that agree on everything but clock, log, convergence times and trace. *)
Definition same_tables (s s' : gst) : Prop :=
  (forall k, get_tbl s k = get_tbl s' k) /\ (forall f, get_frags s f = get_frags s' f) /\
  t_payload s = t_payload s' /\ t_black s = t_black s'.

(** Requests delivering only objects from the set [Dl], without the
    periodic save-and-wipe ... *)
Inductive no_wipe {P : prims} (cfg : gconf P) (Dl : gobj -> Prop) : gprog unit -> Prop :=
| nw_obj n g : Dl g -> no_wipe cfg Dl (object_handler cfg n g)
| nw_note n : no_wipe cfg Dl (notification_handler cfg n)
| nw_req n : no_wipe cfg Dl (request_handler n).

(** ... and with it. *)
Definition delivering {P : prims} (cfg : gconf P) (Dl : gobj -> Prop) (p : gprog unit) : Prop :=
  no_wipe cfg Dl p \/ p = periodic.

(** STH or REV statements. *)
Definition statement (g : gobj) : Prop := g_type g = STH_INIT \/ g_type g = REV_INIT.

(** The deliveries [Dl] contain no accusation and no conflict proof
    about [e], and do not show it equivocating: statements of [e] with one
    identifier carry one signature. *)
Definition no_evidence (e : string) (Dl : gobj -> Prop) : Prop :=
  (forall g, Dl g -> g_p0 g = e -> g_type g <> ACC_INIT /\ g_type g <> ACC_FRAG /\ g_type g <> ACC_FULL /\ g_type g <> CON_INIT) /\
  (forall g h, Dl g -> Dl h -> g_p0 g = e -> statement g -> get_id g = get_id h -> g_s0 g = g_s0 h /\ g_s1 g = g_s1 h).

(** Two states agree on all entities outside [E]. *)
Definition agree_outside (E : string -> Prop) (s s' : gst) : Prop :=
  (forall k i, ~ E (i_entity i) -> get_tbl s' k !! i = get_tbl s k !! i) /\
  (forall f i, ~ E (i_entity i) -> get_frags s' f !! i = get_frags s f !! i) /\
  (forall i, ~ E (i_entity i) -> t_payload s' !! i = t_payload s !! i) /\
  (forall x, ~ E x -> (x ∈ t_black s' <-> x ∈ t_black s)).

(** Everything sent between [s] and [s'] is about entities in [E]. *)
Definition sends_about (E : string -> Prop) (s s' : gst) : Prop :=
  exists l, t_trace s' = (t_trace s ++ l)%list /\ forall ev, ev ∈ l -> is_send ev = true -> E (about ev).

(** Reachable under some interleaving of requests, timers and period
    changes. *)
Definition reachable {P : prims} (cfg : gconf P) (s : gst) : Prop :=
  exists a b c y, gpsteps cfg (init_pool a b c) y /\ p_st y = s.

(** Handle objects one after the other. *)
Definition handle_all {P : prims} (cfg : gconf P) (l : list gobj) (s : gst) : gst :=
  fold_left (λ s g, (run (handle cfg g) s).1.1) l s.

(** A fragment for identifier [i] and payload (entity, p1, p2), signed with a registered key. *)
Definition honest_fragment {P : prims} (c : cconf P) (i : gid) (p1 p2 : string) (g : gobj) : Prop :=
  get_id g = i /\ g_p1 g = p1 /\ g_p2 g = p2 /\
  exists sf pk, g_s0 g = sigfrag_string sf /\ plain_id (sf_id sf) = true /\ cc_bls_pubs c !! sf_id sf = Some pk /\
                bls_check pk (covered g) (sf_sign sf) = true.

(** Pairwise different signatures. *)
Definition distinct_sigs (l : list gobj) : Prop := NoDup (map (λ g, (g_s0 g, g_s1 g)) l).

(** An object with the identifier, type and signatures of [g] is stored. *)
Definition already_held (s : gst) (g : gobj) : Prop :=
  (exists k o, g_type g = okind_type k /\ get_tbl s k !! get_id g = Some o /\ g_s0 o = g_s0 g /\ g_s1 o = g_s1 g) \/
  (exists f l o, g_type g = frag_type f /\ get_frags s f !! get_id g = Some l /\ o ∈ l /\ g_s0 o = g_s0 g /\ g_s1 o = g_s1 g).

(** The table for statements of the type of [g]. *)
Definition statement_table (s : gst) (g : gobj) : gmap gid gobj :=
  if decide (g_type g = STH_INIT) then t_sth_init s else t_rev_init s.

(** The message by which a new statement is announced to neighbours: REV
    statements whose encoding exceeds the threshold are announced by a
    notification carrying their hash. *)
Definition announcement {P : prims} (cfg : gconf P) (g : gobj) : string * gmsg :=
  if decide (g_type g = STH_INIT) then ("/gossip/sth_init", MObj g)
  else if decide (g_type g = CON_INIT) then ("/gossip/con_init", MObj g)
  else if decide (gc_opt_threshold cfg < Z.of_nat (String.length (gobj_marshal g)))%Z then
    ("/gossip/new_payload_notification",
     MNote (mknote (cc_self (gc_crypto cfg)) (g_period g) (g_type g) (g_p0 g) (obj_hash (P:=P) g)))
  else ("/gossip/rev_init", MObj g).

(** Events of publishing [g]: one message per neighbour, then the monitor. *)
Definition publication {P : prims} (cfg : gconf P) (g : gobj) : list gevt :=
  (map (λ url, ToGossiper url (announcement cfg g).1 (announcement cfg g).2) (gc_neighbours cfg)
   ++ [ToMonitor (gc_owner cfg) g])%list.

(** Delivered statements with one identifier name one non-empty signer. *)
Definition one_signer (sg : gid -> string) (e : gevent) : Prop :=
  match e with
  | Recv _ g => statement g -> g_signer g = sg (get_id g) /\ g_signer g <> ""
  | Period => False
  | _ => True
  end.
