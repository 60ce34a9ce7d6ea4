(** What a monitor is supposed to do, in terms of the objects it is given, what
    its storages hold and what it sends. *)
From Verif Require Import Bytes Types Crypto Verify Bitset Revocation Clock Monitor.
Open Scope string_scope.

(** The object an event hands to the monitor: received from the gossiper, or
    answered by a queried logger or CA. *)
Definition carries (e : mevent) (g : gobj) : Prop := e = MGossip g \/ exists f u, e = MReply f u (Some g).
Definition received (l : list mevent) (g : gobj) : Prop := exists e, e ∈ l /\ carries e g.

(** Each entry is an object of one of the types [tys], under its own identifier. *)
Definition filed (t : gmap gid gobj) (tys : list string) : Prop :=
  forall i g, t !! i = Some g -> i = get_id g /\ g_type g ∈ tys.

(** [g] is in one of the storages of FULL objects and proofs of misbehaviour. *)
Definition held (s : mst) (g : gobj) : Prop :=
  exists i, m_sth s !! i = Some g \/ m_rev s !! i = Some g \/ m_con s !! i = Some g \/ m_acc s !! i = Some g \/
    m_con_d s !! i = Some g \/ m_acc_d s !! i = Some g.

(** The storage meant for the type of [g] holds [g] under its identifier. *)
Definition at_home (s : mst) (g : gobj) : Prop :=
  (g_type g = STH_FULL /\ m_sth s !! get_id g = Some g) \/
  (g_type g = REV_FULL /\ m_rev s !! get_id g = Some g) \/
  (g_type g = CON_INIT /\ m_con s !! get_id g = Some g) \/
  (g_type g = ACC_FULL /\ m_acc s !! get_id g = Some g) \/
  ((g_type g = STH_INIT \/ g_type g = REV_INIT) /\ m_temp s !! get_id g = Some g).

Definition monitor_type (t : string) : Prop :=
  t ∈ [STH_FULL; REV_FULL; CON_INIT; ACC_FULL; STH_INIT; REV_INIT].

(** The list of an update an object of its type belongs to. *)
Definition listed (u : update) (g : gobj) : Prop :=
  (g_type g = STH_FULL /\ g ∈ u_sths u) \/ (g_type g = REV_FULL /\ g ∈ u_revs u) \/
  (g_type g = CON_INIT /\ g ∈ u_cons u) \/ (g_type g = ACC_FULL /\ g ∈ u_accs u).

(** Everything in an update. *)
Definition contents (u : update) : list gobj := (u_sths u ++ u_revs u ++ u_cons u ++ u_accs u)%list.

(** Nothing in [l] replaces [g] (another object with its identifier), and no period
    task of another period runs. *)
Definition undisturbed (g : gobj) (l : list mevent) : Prop :=
  forall e, e ∈ l -> (forall g', carries e g' -> get_id g' <> get_id g) /\ (forall m, e = MWipe m -> pad2 m = g_period g).

(** No conflict proof with the period "0" for [e] was received. *)
Definition no_zero_con (e : string) (l : list mevent) : Prop :=
  forall g, received l g -> g_type g = CON_INIT -> g_p0 g = e -> g_period g <> "0".

(** The end-of-period task run without interruption. *)
Definition period_end (m : nat) : list mevent := [MClean; MWipe m; MPublish m].

Section with_prims.
Context {P : prims} (z : gzip) (c : mconf (P:=P)).

Definition reached (l : list mevent) (s : mst) : Prop := exists o, mrun z c monitor_init l = Some (s, o).

(** The updates written in a history that starts in [s]: one per MPublish. *)
Fixpoint written (s : mst) (l : list mevent) : list update :=
  match l with
  | [] => []
  | e :: r =>
      match mstep z c s e with
      | None => []
      | Some (s1, _) =>
          ((match e with MPublish m => [generate_update c s m] | _ => [] end) ++ written s1 r)%list
      end
  end.

(** The objects sent to the gossiper and the entities queried in a history. *)
Definition sends (o : list mout) (g : gobj) : Prop := MSend g ∈ o.
Definition asks (o : list mout) (e : string) : Prop := exists f, MAsk f e ∈ o.

(** An accusation of [e]. *)
Definition accuses (o : list mout) (e : string) : Prop := exists g, MSend g ∈ o /\ g_type g = ACC_INIT /\ g_p0 g = e.

(** A proof of misbehaviour against [e]: accusation or conflict. *)
Definition proof_against (s : mst) (e : string) : Prop :=
  (exists p, is_Some (m_acc s !! mkgid p ACC_FULL e)) \/ (exists p, is_Some (m_con s !! mkgid p CON_INIT e)).

(** An answer to a query that a monitor may hold against the entity: none, or an object that does not
    verify, or a revocation object whose hash does not check against the delta itself nor against
    some vector [v]. *)
Definition bad_answer (f : fam) (r : option gobj) : Prop :=
  r = None \/ exists g, r = Some g /\
    (verify (mc_crypto c) g = Reject \/
     f = Rev /\ exists old, verify_srh (mc_crypto c) (fst (srh_and_dcrv z g)) (snd (srh_and_dcrv z g)) old (g_period g) = Reject).
(** Every identity in the signatures of an answer has a registered key. *)
Definition identities_known (f : fam) (g : gobj) : Prop :=
  (forall str x, str = g_s0 g \/ str = g_s1 g -> rsasig_from_string str = Some x -> is_Some (cc_rsa_pubs (mc_crypto c) !! rs_id x)) /\
  (f = Rev -> exists x, rsasig_from_string (fst (srh_and_dcrv z g)) = Some x /\ is_Some (cc_rsa_pubs (mc_crypto c) !! rs_id x)).
End with_prims.

(** Accusations of [e], answers of [e], pending accusations of [e]. *)
Definition accuses_one (e : string) (x : mout) : bool :=
  match x with MSend g => bool_decide (g_type g = ACC_INIT /\ g_p0 g = e) | _ => false end.
Definition answered_one (e : string) (x : mevent) : bool :=
  match x with MReply _ u _ => String.eqb u e | _ => false end.
Definition waits_one (e : string) (x : timer) : bool :=
  match x with TAccuse u _ => String.eqb u e | _ => false end.

