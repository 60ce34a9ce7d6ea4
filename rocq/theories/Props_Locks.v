(** C127-C130: the goroutines of one process and the maps they share. *)
From Verif Require Import Bytes Types Locks SpecLocks LockUse LocksFacts LockUseFacts RefuteLocks.
Open Scope string_scope.

(** C127, part: the handlers and signing timers of a gossiper never access a map while another one changes it, never misuse a lock, never deadlock, and can all finish. *)
Theorem C127_handlers_partial l : only gossip_handler l ->
  pr_dead (lrun l) = false /\ ~ deadlock (lrun l) /\ (forall m, ~ collision (lrun l) m) /\
  (exists l', only_steps l' /\ pr_dead (lrun (l ++ l')) = false /\ all_done (lrun (l ++ l'))).
Proof. exact (gossiper_locks l). Qed.
Print Assumptions C127_handlers_partial.

(** While one of them holds the lock of a map for writing no other one is about to use the map; while one holds it for reading no other one is about to change it.  So a critical section is one
    step for the others, as in Gossiper.v and Prog.v. *)
Theorem C127_critical_sections_partial l m i j ops : only gossip_handler l -> i <> j -> pr_threads (lrun l) !! i = Some ops ->
  (holds_write (m ++ "_LOCK") ops = true -> ~ about_to (lrun l) j (Read m) /\ ~ about_to (lrun l) j (Write m)) /\
  (holds_read (m ++ "_LOCK") ops = true -> ~ about_to (lrun l) j (Write m)).
Proof. exact (gossiper_critical l m i j ops). Qed.
Print Assumptions C127_critical_sections_partial.

(** With the task at the end of a period all of it fails: the process can die by unlocking a lock the task has replaced, the task can range over a map that a handler changes, and
    two handlers can be inside the same critical section. *)
Theorem C127_period_end_refuted : (exists l, only gossip_goroutine l /\ pr_dead (lrun l) = true) /\
  (exists l, only gossip_goroutine l /\ exists i, about_to (lrun l) i (Read "STH_FRAG") /\ collision (lrun l) "STH_FRAG") /\
  (exists l i j, only gossip_goroutine l /\ i <> j /\ about_to (lrun l) i (Write "STH_FRAG") /\ about_to (lrun l) j (Write "STH_FRAG")).
Proof. exact gossiper_refuted. Qed.
Print Assumptions C127_period_end_refuted.

Example C127_ex : only gossip_handler gl_busy /\ nextop (lrun gl_busy) 0 = Some (Write "STH_FRAG") /\ holds_write "STH_FRAG_LOCK" (default [] (pr_threads (lrun gl_busy) !! 0)) = true /\
  blocked (lrun gl_busy) 1.
Proof. exact gl_busy_ok. Qed.

(** C128, part: the goroutines of a monitor never misuse a lock, never deadlock, and can all finish. *)
Theorem C128_no_deadlock_partial l : only mon_goroutine l ->
  pr_dead (lrun l) = false /\ ~ deadlock (lrun l) /\ (exists l', only_steps l' /\ pr_dead (lrun (l ++ l')) = false /\ all_done (lrun (l ++ l'))).
Proof. exact (monitor_locks l). Qed.
Print Assumptions C128_no_deadlock_partial.

(** Receiving objects, storing them and the timers of revocation objects do not collide on the maps the objects are kept in. *)
Theorem C128_receiving_partial l m : only (λ ops, mon_request ops \/ exists b, ops = crv_timer b) l ->
  m ∈ ["Storage_TEMP"; "Storage_CONFLICT_POM"; "Storage_ACCUSATION_POM"; "Storage_STH_FULL"; "Storage_REV_FULL"] -> ~ collision (lrun l) m.
Proof. exact (monitor_requests l m). Qed.
Print Assumptions C128_receiving_partial.

(** Two conflict proofs collide on the map of new proofs, two timers on the revocation vectors, a round of queries and the timer of an accusation with an object that arrives,
    and so does the task at the end of the period. *)
Theorem C128_monitor_maps_refuted :
  (exists l, only mon_request l /\ collision (lrun l) "Storage_CONFLICT_POM_DELTA") /\
  (exists l, only (λ ops, exists b, ops = crv_timer b) l /\ collision (lrun l) "Storage_CRV") /\
  (exists l, only (λ ops, mon_request ops \/ exists cs, ops = mon_round cs) l /\ collision (lrun l) "Storage_CONFLICT_POM") /\
  (exists l, only (λ ops, mon_request ops \/ exists b1 b2 b3, ops = accuse_timer b1 b2 b3) l /\ collision (lrun l) "Storage_TEMP") /\
  (exists l, only mon_goroutine l /\ (exists c1 c2 w1 w2 w3 w4 w5 n1 n2 n3 n4 n5, Start (mon_period c1 c2 w1 w2 w3 w4 w5 n1 n2 n3 n4 n5) ∈ l) /\ collision (lrun l) "Storage_TEMP").
Proof. exact monitor_refuted. Qed.
Print Assumptions C128_monitor_maps_refuted.

(** C129, part: the goroutines of a CA never misuse a lock, never deadlock, and can all finish. *)
Theorem C129_no_deadlock_partial l : only ca_goroutine l ->
  pr_dead (lrun l) = false /\ ~ deadlock (lrun l) /\ (exists l', only_steps l' /\ pr_dead (lrun (l ++ l')) = false /\ all_done (lrun (l ++ l'))).
Proof. exact (ca_locks l). Qed.
Print Assumptions C129_no_deadlock_partial.

(** Its request handlers collide at most on the map of tree heads; tree heads alone do not collide. *)
Theorem C129_requests_partial l m : only ca_request l -> m <> "STH_storage" -> ~ collision (lrun l) m.
Proof. exact (ca_requests l m). Qed.
Print Assumptions C129_requests_partial.
Theorem C129_heads_partial l m : only (λ ops, ops = ca_sth) l -> ~ collision (lrun l) m.
Proof. exact (ca_heads l m). Qed.
Print Assumptions C129_heads_partial.

(** A tree head and a proof that arrive at the same time collide; so do issuing and a proof, and the new revocation object and a request for one. *)
Theorem C129_ca_maps_refuted :
  (exists l, only ca_request l /\ collision (lrun l) "STH_storage") /\
  (exists l, only ca_goroutine l /\ collision (lrun l) "bySubjectKeyId") /\
  (exists l, only ca_goroutine l /\ collision (lrun l) "REV_storage").
Proof. exact ca_refuted. Qed.
Print Assumptions C129_ca_maps_refuted.

(** C130, part: the goroutines of a logger never misuse a lock, never deadlock, and can all finish; the handlers never collide, and precertificates are never lost to a collision. *)
Theorem C130_no_deadlock_partial l : only log_goroutine l ->
  pr_dead (lrun l) = false /\ ~ deadlock (lrun l) /\ (exists l', only_steps l' /\ pr_dead (lrun (l ++ l')) = false /\ all_done (lrun (l ++ l'))).
Proof. exact (logger_locks l). Qed.
Print Assumptions C130_no_deadlock_partial.
Theorem C130_requests_partial l m : only log_request l -> ~ collision (lrun l) m.
Proof. exact (logger_requests l m). Qed.
Print Assumptions C130_requests_partial.
Theorem C130_precerts_partial l m : only log_goroutine l -> m ∈ ["byName"; "bySubjectKeyId"] -> ~ collision (lrun l) m.
Proof. exact (logger_pool l m). Qed.
Print Assumptions C130_precerts_partial.

(** A request for the tree head while the logger publishes collides. *)
Theorem C130_logger_maps_refuted : exists l, only log_goroutine l /\ collision (lrun l) "STH_storage".
Proof. exact logger_refuted. Qed.
Print Assumptions C130_logger_maps_refuted.

(** Histories of monitors, CAs and loggers that meet the hypotheses: two goroutines each, both under way. *)
Example C128_ex : only mon_request ml_delta /\ only (λ ops, mon_request ops \/ exists b, ops = crv_timer b) ml_delta /\ only mon_goroutine ml_period.
Proof. exact ml_ok. Qed.
Example C129_ex : only ca_request cl_poi /\ only ca_goroutine cl_issue /\ only (λ ops, ops = ca_sth) cl_heads /\ blocked (lrun cl_heads) 1.
Proof. exact cl_ok. Qed.
Example C130_ex : only log_goroutine ll_publish /\ only log_request ll_precerts /\ nextop (lrun ll_precerts) 0 = Some (Write "byName") /\ blocked (lrun ll_precerts) 1.
Proof. exact ll_ok. Qed.
