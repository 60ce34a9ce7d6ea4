(** Properties of a monitor whose goroutines interleave at every access to its storages. *)
From Verif Require Import Bytes Types Crypto Verify Bitset BitsetFacts Revocation Clock Monitor FineMonitor SpecFineMonitor FineMonitorFacts FineMonitorMore FineMonitorRec.
From Verif Require Import SpecCA Toy RefuteVerify RefuteCA RefuteMonitor RefuteFineMonitor.
Open Scope string_scope.

(* ---------------------------------------------------------------- *)
(** C141: in every interleaving, everything a monitor stores was received, and is stored where its type belongs under its own identifier. *)
Theorem C141_stored {P : prims} z (c : mconf (P := P)) l y o : frun z c fm_init l = Some (y, o) ->
  (forall i g, m_sth (fm_st y) !! i = Some g -> get_id g = i /\ g_type g = STH_FULL /\ freceived l g) /\
  (forall i g, m_rev (fm_st y) !! i = Some g -> get_id g = i /\ g_type g = REV_FULL /\ freceived l g) /\
  (forall i g, m_con (fm_st y) !! i = Some g -> get_id g = i /\ g_type g = CON_INIT /\ freceived l g) /\
  (forall i g, m_acc (fm_st y) !! i = Some g -> get_id g = i /\ g_type g = ACC_FULL /\ freceived l g) /\
  (forall i g, m_temp (fm_st y) !! i = Some g -> get_id g = i /\ (g_type g = STH_INIT \/ g_type g = REV_INIT) /\ freceived l g).
Proof. exact (@fine_stored P z c l y o). Qed.
Print Assumptions C141_stored.

(** Proofs are never lost. *)
Theorem C141_kept {P : prims} z (c : mconf (P := P)) l y y' o i : frun z c y l = Some (y', o) ->
  (is_Some (m_con (fm_st y) !! i) -> is_Some (m_con (fm_st y') !! i)) /\ (is_Some (m_acc (fm_st y) !! i) -> is_Some (m_acc (fm_st y') !! i)).
Proof. exact (λ R, @fine_kept P z c l y y' o R i). Qed.
Print Assumptions C141_kept.

(** It sends its gossiper only its own accusations of entities that gave a bad answer, and verified first statements of known entities that were answers ... *)
Theorem C141_sent {P : prims} z (c : mconf (P := P)) l y o g : frun z c fm_init l = Some (y, o) -> FSend g ∈ o ->
  (exists e m stamp, g = accusation c m stamp e /\ bad_answer z c l e) \/ forwards c l g.
Proof. exact (@fine_sent P z c l y o g). Qed.
Print Assumptions C141_sent.

(** ... and no more accusations of an entity than the entity gave answers. *)
Theorem C141_accusations {P : prims} z (c : mconf (P := P)) x l y o : frun z c fm_init l = Some (y, o) -> accusations x o <= answers x l.
Proof. exact (@fine_accusations P z c x l y o). Qed.
Print Assumptions C141_accusations.

(** It asks only the configured entities. *)
Theorem C141_asked {P : prims} z (c : mconf (P := P)) l y o f u : frun z c fm_init l = Some (y, o) -> FAsk f u ∈ o ->
  u ∈ match f with Rev => mc_cas c | _ => mc_loggers c end.
Proof. exact (@fine_asked P z c l y o f u). Qed.
Print Assumptions C141_asked.

(** Every update has only objects that were received, each in the list of its type and once. *)
Theorem C141_updates {P : prims} z (c : mconf (P := P)) l y o d u : frun z c fm_init l = Some (y, o) -> FUpdate d u ∈ o -> honest_update l u.
Proof. exact (@fine_updates P z c l y o d u). Qed.
Print Assumptions C141_updates.

(** A proof and a head are stored, an entity is accused, an update is published. *)
Example C141_ex : frun toy_z toy_mc fm_init day = Some (fst_of day, out_of day) /\
  (sent_to "localhost:9101" day = 1 /\ published (out_of day) = [("Period_7", [other_sth])] /\ m_sth (fm_st (fst_of day)) !! get_id other_sth = Some other_sth).
Proof. exact (conj day_lives day_shows). Qed.

(* ---------------------------------------------------------------- *)
(** C142: a monitor that holds a conflict proof (of period "0", for which it looks) against an entity publishes no statement of the entity, if no final
    statement of it is on its way into the storages ... *)
Theorem C142_withheld_partial {P : prims} z (c : mconf (P := P)) e l1 y1 o1 l2 y2 o2 d u : frun z c fm_init l1 = Some (y1, o1) ->
  is_Some (m_con (fm_st y1) !! mkgid "0" CON_INIT e) -> (forall a, a ∈ fm_go y1 -> ~ busy_for e a) -> (forall g, freceived l2 g -> ~ full_of e g) ->
  frun z c y1 l2 = Some (y2, o2) -> FUpdate d u ∈ o2 -> forall g, g ∈ u_sths u \/ g ∈ u_revs u -> g_p0 g <> e.
Proof. exact (@fine_withholds P z c e l1 y1 o1 l2 y2 o2 d u). Qed.
Print Assumptions C142_withheld_partial.

(** ... REFUTED otherwise: a statement that arrives while the task is under way is published, although the proof was there before the task began and nothing else
    was going on. *)
Theorem C142_withheld_refuted : frun toy_z toy_mc fm_init convict = Some (fst_of convict, out_of convict) /\
  (is_Some (m_con (fm_st (fst_of convict)) !! mkgid "0" CON_INIT "localhost:9100") /\ fm_go (fst_of convict) = []) /\
  exists y o u, frun toy_z toy_mc (fst_of convict) after_convict = Some (y, o) /\ o = [FUpdate "Period_7" u] /\ u_sths u = [toy_sth_full] /\
    g_p0 toy_sth_full = "localhost:9100" /\ head after_convict = Some FTask.
Proof. exact (conj convict_lives (conj convict_shows late_published)). Qed.
Print Assumptions C142_withheld_refuted.

Example C142_ex : frun toy_z toy_mc fm_init early = Some (fst_of early, out_of early) /\
  (is_Some (m_con (fm_st (fst_of early)) !! mkgid "0" CON_INIT "localhost:9100") /\ fm_go (fst_of early) = []).
Proof. exact (conj early_lives early_shows). Qed.

(* ---------------------------------------------------------------- *)
(** C143: what is recorded of a CA stays as it is.  REFUTED: any vector can be replaced by any other one, in one step. *)
Theorem C143_replaced_refuted {P : prims} z (c : mconf (P := P)) ca d1 d2 : gzip_ok z -> bs_ok d1 -> bs_ok d2 ->
  exists l e y1 o1 y2 o2, frun z c fm_init l = Some (y1, o1) /\ m_crv (fm_st y1) !! ca = Some d1 /\
    fstep z c y1 e = Some (y2, o2) /\ m_crv (fm_st y2) !! ca = Some d2.
Proof. exact (@any_replaced P z c ca d1 d2). Qed.
Print Assumptions C143_replaced_refuted.

(** It stays as it is if no other timer of the CA has looked before it was recorded and not yet recorded its own ... *)
Theorem C143_vector_partial {P : prims} z (c : mconf (P := P)) ca d l y y' o : m_crv (fm_st y) !! ca = Some d -> (forall x, GCrvSet ca x ∉ fm_go y) ->
  frun z c y l = Some (y', o) -> m_crv (fm_st y') !! ca = Some d.
Proof. exact (@fine_vector P z c ca d l y y' o). Qed.
Print Assumptions C143_vector_partial.

(** ... and is always what some final statement of the CA said that was received. *)
Theorem C143_origin {P : prims} z (c : mconf (P := P)) l y o ca d : frun z c fm_init l = Some (y, o) -> m_crv (fm_st y) !! ca = Some d -> recorded_of z l ca d.
Proof. exact (@fine_recorded P z c l y o ca d). Qed.
Print Assumptions C143_origin.

Example C143_ex : gzip_ok toy_z /\ bs_ok (bs_new 64) /\ bs_ok (bs_set (bs_new 64) 3).
Proof. exact sets_ok. Qed.

(* ---------------------------------------------------------------- *)
(** C144: an entity is accused only if its statement of the minute is missing.  REFUTED: the statement can be in store when the accusation is sent, all
    within one minute. *)
Theorem C144_in_store_refuted : frun toy_z toy_mc fm_init unjust = Some (fst_of unjust, out_of unjust) /\
  exists l1 l2 y1 o1, unjust = (l1 ++ l2)%list /\ frun toy_z toy_mc fm_init l1 = Some (y1, o1) /\
  m_temp (fm_st y1) !! mkgid "07" STH_INIT "localhost:9100" = Some toy_sth07 /\ accusations "localhost:9100" o1 = 0 /\
  accusations "localhost:9100" (out_of unjust) = 1 /\ Forall (λ e, match e with FStep _ m _ _ => m = 7 | _ => True end) unjust.
Proof. exact (conj unjust_lives unjust_shows). Qed.
Print Assumptions C144_in_store_refuted.

(** It was missing when the timer ran out ... *)
Theorem C144_missing_partial {P : prims} z (c : mconf (P := P)) l y o x : frun z c fm_init l = Some (y, o) -> 0 < accusations x o -> was_missing z c l x.
Proof. exact (@fine_missing P z c l y o x). Qed.
Print Assumptions C144_missing_partial.

(** ... and an entity with a conflict proof (of period "0") is not accused any more, unless the monitor is just about to. *)
Theorem C144_convicted {P : prims} z (c : mconf (P := P)) x l y y' o : is_Some (m_con (fm_st y) !! mkgid "0" CON_INIT x) -> GAccuse x ∉ fm_go y ->
  frun z c y l = Some (y', o) -> accusations x o = 0.
Proof. exact (@fine_convicted P z c x l y y' o). Qed.
Print Assumptions C144_convicted.

Example C144_ex : frun toy_z toy_mc fm_init day = Some (fst_of day, out_of day) /\ 0 < accusations "localhost:9101" (out_of day) /\ GAccuse "localhost:9100" ∉ fm_go (fst_of early).
Proof. exact (conj day_lives (conj day_accuses early_quiet)). Qed.
