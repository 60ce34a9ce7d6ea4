(** Vocabulary: a monitor gets no good answer from an entity. *)
From Verif Require Import Bytes Hex Json Types Crypto Verify Bitset CTngExt Clock Revocation Prog Gossiper Network Overlap System SpecGossiper.
From Verif Require Logger CA Monitor Client.
Open Scope string_scope.

Section spec.
Context {P : prims} (z : gzip) (x : CA.x509lib) (S : sysconf P) (W0 : world).

(** No answer, one that does not verify, or a revocation object that does not go with what the monitor has recorded of the CA. *)
Definition no_good (c : @Monitor.mconf P) (s : Monitor.mst) (f : fam) (r : option gobj) : Prop :=
  r = None \/ exists g, r = Some g /\
    (verify (Monitor.mc_crypto c) g = Reject \/
     (f = Rev /\ verify (Monitor.mc_crypto c) g = Accept /\
      verify_srh (Monitor.mc_crypto c) (fst (srh_and_dcrv z g)) (snd (srh_and_dcrv z g)) (Monitor.m_crv s !! g_p0 g) (g_period g) = Reject)).

(** In the history [l] the monitor [mon], which belongs to the gossiper [u], gets no good answer of [e]: when a timer it has set for
    that fires, it has neither heard of a statement of [e] for the minute nor of a proof against [e]; and in the end all these timers have fired. *)
Definition unanswered (e : string) (l : list wevent) (mon u : string) : Prop :=
  exists c f, sy_monitors S !! mon = Some (c, u) /\
    (exists l1 i m l2 r s, l = (l1 ++ EDeliver i m :: l2)%list /\ w_mail (wrun z x S W0 l1) !! i = Some (Response mon f e r) /\
       w_mons (wrun z x S W0 l1) !! mon = Some s /\ no_good c s f r) /\
    (forall l1 n m stamp l2 s, l = (l1 ++ EMonitor mon (Monitor.MFire n m stamp) :: l2)%list -> w_mons (wrun z x S W0 l1) !! mon = Some s ->
       Monitor.m_timers s !! n = Some (Monitor.TAccuse e f) ->
       Monitor.m_temp s !! mkgid (pad2 m) (init_type f) e = None /\ Monitor.m_acc s !! mkgid (pad2 m) ACC_FULL e = None /\ Monitor.m_con s !! mkgid "0" CON_INIT e = None) /\
    (exists s, w_mons (wrun z x S W0 l) !! mon = Some s /\ Monitor.TAccuse e f ∉ Monitor.m_timers s).

(** A query of the monitor [mon] to [e], or its result, is under way. *)
Definition open_query (W : world) (mon : string) (f : fam) (e : string) : Prop :=
  Query mon f e ∈ w_mail W \/ exists r, Response mon f e r ∈ w_mail W.

(** No process of that name runs. *)
Definition not_running (W : world) (e : string) : Prop := w_loggers W !! e = None /\ w_cas W !! e = None.
End spec.
