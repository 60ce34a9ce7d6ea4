(** What is said about networks of gossipers. *)
From Verif Require Import Bytes Hex Json Types Crypto Verify Prog Gossiper Network SpecCodec SpecVerify SpecGossiper.
Open Scope string_scope.

(** Deliveries and timers per statement among [n] gossipers: each of them
    signs once, and sends the statement and [T] fragments to the others. *)
Definition statement_traffic (n T : nat) : nat := n * (1 + (1 + T) * (n - 1)).

(** Where the aggregate of statement [g] is stored. *)
Definition full_table (s : gst) (g : gobj) : gmap gid gobj := if decide (g_type g = STH_INIT) then t_sth_full s else t_rev_full s.
Definition full_name (g : gobj) : string := if decide (g_type g = STH_INIT) then STH_FULL else REV_FULL.

Section spec.
Context {P : prims} (cfgs : gmap string (gconf P)).

(** Honest gossipers that know each other: everybody is connected to
    everybody else, uses the same threshold [T], and has everybody's
    public key. *)
Record honest_network (T : nat) : Prop := mkhonest {
  hn_self : forall u c, cfgs !! u = Some c -> cc_self (gc_crypto c) = u /\ plain_id u = true;
  hn_threshold : forall u c, cfgs !! u = Some c -> cc_threshold (gc_crypto c) = T;
  hn_scheme : forall u c, cfgs !! u = Some c -> cc_thr_scheme (gc_crypto c) = "bls";
  hn_connected : forall u c, cfgs !! u = Some c -> forall v, v ∈ gc_neighbours c <-> v <> u /\ is_Some (cfgs !! v);
  hn_keys : forall u c v d, cfgs !! u = Some c -> cfgs !! v = Some d ->
    exists pk, cc_bls_pubs (gc_crypto c) !! v = Some pk /\ forall m, bls_check pk m (bls_sign (cc_bls_sec (gc_crypto d)) m) = true;
  hn_enough : 0 < T <= size cfgs
}.

(** The fragment gossiper [d] makes of [g]. *)
Definition fragment_by (d : gconf P) (g : gobj) : gobj :=
  frag_of d g (sigfrag_string (mkfrag (bls_sign (cc_bls_sec (gc_crypto d)) (signed_msg g)) (cc_self (gc_crypto d)))).

(** STH and REV statements of one period that every gossiper accepts, at
    most one STH and one REV per entity.  REV statements and their fragments are
    small enough to be sent as they are, and the optimisation for large
    ones is off if there are any. *)
Record valid_statements (period : string) (Gs : list gobj) : Prop := mkvalid {
  vs_type : forall g, g ∈ Gs -> statement g /\ g_period g = period /\ g_signer g <> "";
  vs_verify : forall g u c, g ∈ Gs -> cfgs !! u = Some c -> verify (gc_crypto c) g = Accept;
  vs_one : forall g h, g ∈ Gs -> h ∈ Gs -> g_type g = g_type h -> g_p0 g = g_p0 h -> g = h;
  vs_small : forall g u c v d, g ∈ Gs -> g_type g = REV_INIT -> cfgs !! u = Some c -> cfgs !! v = Some d ->
    gc_opt_mode c = false /\ (Z.of_nat (len (gobj_marshal g)) <= gc_opt_threshold c)%Z /\
    (Z.of_nat (len (gobj_marshal (fragment_by d g))) <= gc_opt_threshold c)%Z
}.

(** Only such statements are handed to gossipers, and clocks stay in the period. *)
Definition allowed (period : string) (Gs : list gobj) (e : nevent) : Prop :=
  match e with
  | NHand _ g => g ∈ Gs
  | NTick _ p _ _ => p = period
  | _ => True
  end.

(** Nothing is on its way and no timer is pending. *)
Definition quiescent (N : net) : Prop :=
  nt_flight N = [] /\ forall u y, nt_nodes N !! u = Some y -> s_tasks y = [].

(** The event delivers a post or fires a timer. *)
Definition effective (N : net) (e : nevent) : Prop :=
  match e with
  | NDeliver i => i < length (nt_flight N)
  | NFire u i => exists y, nt_nodes N !! u = Some y /\ i < length (s_tasks y)
  | _ => False
  end.
Global Instance effective_dec N e : Decision (effective N e).
Proof.
  destruct e as [| i|u i|]; cbn; try apply _. destruct (nt_nodes N !! u) as [y|] eqn:E.
  - destruct (decide (i < length (s_tasks y))) as [H|H]; [left; eauto|right; by intros (? & [= <-] & ?)].
  - right. by intros (? & ? & ?).
Defined.

(** How many events of a run deliver a post or fire a timer. *)
Fixpoint effective_steps (N : net) (l : list nevent) : nat :=
  match l with
  | [] => 0
  | e :: r => (if decide (effective N e) then 1 else 0) + effective_steps (net_step cfgs N e) r
  end.

End spec.
