(** Vocabulary for statements about a monitor whose goroutines interleave at every access. *)
From Verif Require Import Bytes Types Crypto Verify Bitset Revocation Clock Monitor FineMonitor.
Open Scope string_scope.

(** The object of an event: received from the gossiper, or answered by a queried logger or CA. *)
Definition fcarries (e : fevent) (g : gobj) : Prop := e = FGossip g \/ exists f u, e = FReply f u (Some g).
Definition freceived (l : list fevent) (g : gobj) : Prop := exists e, e ∈ l /\ fcarries e g.

(** The answers of an entity. *)
Definition answer_of (x : string) (e : fevent) : bool := match e with FReply _ u _ => String.eqb u x | _ => false end.
Definition answers (x : string) (l : list fevent) : nat := length (List.filter (answer_of x) l).

Section spec.
Context {P : prims} (z : gzip) (c : mconf (P := P)).

(** Some answer of [x] was nothing, did not verify, or had a hash that did not check against what was recorded of the CA at some time. *)
Definition bad_answer (l : list fevent) (x : string) : Prop :=
  exists f r, FReply f x r ∈ l /\
    (r = None \/ exists g, r = Some g /\
      (verify (mc_crypto c) g = Reject \/
       (f = Rev /\ exists v, verify_srh (mc_crypto c) (fst (srh_and_dcrv z g)) (snd (srh_and_dcrv z g)) v (g_period g) = Reject))).

(** An accusation of [x] made by this monitor, and how many were sent. *)
Definition accuses (x : string) (o : fout) : Prop := exists m stamp, o = FSend (accusation c m stamp x).
Definition accuses_b (x : string) (o : fout) : bool :=
  match o with FSend g => String.eqb (g_type g) ACC_INIT && String.eqb (g_p0 g) x | _ => false end.
Definition accusations (x : string) (o : list fout) : nat := length (List.filter (accuses_b x) o).

(** A statement of a known entity, received as the answer to a query, that verified. *)
Definition forwards (l : list fevent) (g : gobj) : Prop :=
  verify (mc_crypto c) g = Accept /\ (exists f u, FReply f u (Some g) ∈ l) /\
  ((g_type g = STH_INIT /\ g_signer g ∈ mc_all_loggers c) \/ (g_type g = REV_INIT /\ g_signer g ∈ mc_all_cas c)).

(** An update of objects received, each in the list of its type, no two under one identifier. *)
Definition honest_update (l : list fevent) (u : update) : Prop :=
  (forall g, g ∈ u_sths u -> freceived l g /\ g_type g = STH_FULL) /\ NoDup (map get_id (u_sths u)) /\
  (forall g, g ∈ u_revs u -> freceived l g /\ g_type g = REV_FULL) /\ NoDup (map get_id (u_revs u)) /\
  (forall g, g ∈ u_cons u -> freceived l g /\ g_type g = CON_INIT) /\ NoDup (map get_id (u_cons u)) /\
  (forall g, g ∈ u_accs u -> freceived l g /\ g_type g = ACC_FULL) /\ NoDup (map get_id (u_accs u)).
End spec.

(** A final statement of [e]: a tree head or revocations with enough signatures. *)
Definition full_of (e : string) (g : gobj) : Prop := (g_type g = STH_FULL \/ g_type g = REV_FULL) /\ g_p0 g = e.

(** A goroutine that makes an update, or that has a final statement of [e] to check or to store. *)
Definition busy_for (e : string) (a : goro) : Prop :=
  match a with
  | GDup g | GStore g | GSrh _ g => full_of e g
  | GLoop _ _ _ _ _ | GLook _ _ _ _ _ _ | GDel _ _ _ _ _ _ | GPeriod _ | GSave _ => True
  | _ => False
  end.

Section missing.
Context {P : prims} (z : gzip) (c : mconf (P := P)).

(** At some time the timer of [e] ran out and there was no statement of [e] for the minute it was then. *)
Definition was_missing (l : list fevent) (e : string) : Prop :=
  exists l1 l2 y o f n m stamp k, l = (l1 ++ FStep n m stamp k :: l2)%list /\ frun z c fm_init l1 = Some (y, o) /\
    fm_go y !! n = Some (GTemp e f) /\ m_temp (fm_st y) !! mkgid (pad2 m) (init_type f) e = None.

(** Whatever is recorded of a CA is what final revocations with its name that were received say. *)
Definition recorded_of (l : list fevent) (ca : string) (d : bitset) : Prop :=
  exists g, freceived l g /\ g_type g = REV_FULL /\ g_p0 g = ca /\ d = snd (srh_and_dcrv z g).
End missing.
