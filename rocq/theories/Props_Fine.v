(** C132: single accesses against atomic critical sections. *)
From Verif Require Import Bytes Types Crypto Verify Prog Gossiper SpecGossiper RefuteGossiper Locks Fine FineGossiper FineGossiperFacts RefuteFine.
Open Scope string_scope.

(** However the scheduler switches between the goroutines of a gossiper, after every lock operation and every access to a map: the process does not die by misusing a
    lock, and what is stored, blacklisted and sent so far, the waiting timers and the panics are those of a run in which critical sections are not interrupted. *)
Theorem C132_as_if_atomic_partial : forall (P : prims) (cfg : gconf P) Dl a b d c, fine_steps cfg Dl (fine_init a b d) c ->
  f_dead c = false /\ exists c', psteps (start_task cfg) (no_wipe cfg Dl) clock_step (init_pool a b d) c' /\
    p_st c' = f_st c /\ p_tasks c' = f_tasks c /\ p_crashes c' = f_crashes c /\ length (p_threads c') = length (f_threads c).
Proof. exact @fine_sim. Qed.
Print Assumptions C132_as_if_atomic_partial.

(** So every state is one that C11-C14 and the other theorems about [reachable] states speak about ... *)
Theorem C132_reachable_partial : forall (P : prims) (cfg : gconf P) Dl a b d c, fine_steps cfg Dl (fine_init a b d) c -> reachable cfg (f_st c).
Proof. exact @fine_reachable. Qed.
Print Assumptions C132_reachable_partial.

(** ... the blacklist only grows ... *)
Theorem C132_blacklist_grows_partial : forall (P : prims) (cfg : gconf P) Dl a b d c c',
  fine_steps cfg Dl (fine_init a b d) c -> fine_steps cfg Dl c c' -> t_black (f_st c) ⊆ t_black (f_st c').
Proof. exact @fine_black. Qed.
Print Assumptions C132_blacklist_grows_partial.

(** ... and nothing panics while the objects delivered can be checked without a panic. *)
Theorem C132_no_panic_partial : forall (P : prims) (cfg : gconf P) a b d c, cc_thr_scheme (gc_crypto cfg) = "bls" ->
  fine_steps cfg (λ g, verify (gc_crypto cfg) g <> Panics) (fine_init a b d) c -> f_crashes c = [].
Proof. exact @fine_nocrash. Qed.
Print Assumptions C132_no_panic_partial.

(** With the task at the end of a period it is false: the task replaces the locks, two handlers are in one critical section, and a fragment that was counted is lost, which
    no run with uninterrupted critical sections does. *)
Theorem C132_period_end_refuted : exists (P : prims) (cfg : gconf P) (Dl : gobj -> Prop) a b d c,
  fine_steps_all cfg Dl (fine_init a b d) c /\ f_dead c = false /\ ~ reachable cfg (f_st c).
Proof. exact period_end_fine. Qed.
Print Assumptions C132_period_end_refuted.

(** A run: two copies of a fragment have passed the duplicate test, one goroutine has read the list and not yet written it, the other one waits for the lock; later both copies are stored. *)
Example C132_ex : fine_steps cfg1 (λ g, g = junk_frag) (fine_init "07" "s" "t") fine_mid /\ fine_steps cfg1 (λ g, g = junk_frag) fine_mid fine_late.
Proof. exact fine_mid_ok. Qed.
Example C132_ex_mid : (match f_threads fine_mid with [_; m] => waits_for m (f_locks fine_mid) "STH_FRAG_LOCK" | _ => false end) = true /\
  length (get_object_list (f_st fine_mid) (get_id junk_frag) Sth) = 0 /\ get_object_list (f_st fine_late) (get_id junk_frag) Sth = [junk_frag; junk_frag].
Proof. exact fine_mid_test. Qed.
Example C132_ex_verify : verify (gc_crypto cfg1) junk_frag <> Panics /\ cc_thr_scheme (gc_crypto cfg1) = "bls".
Proof. split; [exact junk_ok|reflexivity]. Qed.
