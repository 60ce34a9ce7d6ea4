(** C117-C119 *)
From Verif Require Import Bytes Hex Json Types Crypto Verify Prog Gossiper SpecVerify SpecGossiper SpecStops Toy RefuteGossiper RecordFacts ConvergeFacts.
From Verif Require Import Cert CertPool Logger SpecCert SpecLogger StopsFacts RefuteLogger RefuteStops.
Open Scope string_scope.

(** C117: the record of a period has the number of objects of each kind there were at its end.  When the period ends, a record is made if
    the gossiper holds anything, and the records of other periods stay; *)
Theorem C117_recorded : forall (P : prims) (cfg : gconf P) y p, let s := s_st y in let s' := s_st (step cfg y Period) in period_is s p ->
  (holds_something s -> exists e, t_log s' !! p = Some e /\ e_period e = p /\ counts s e) /\
  (~ holds_something s -> t_log s' !! p = t_log s !! p) /\
  (forall q, q <> p -> t_log s' !! q = t_log s !! q).
Proof. exact @period_recorded. Qed.
Print Assumptions C117_recorded.

(** so that in every history there is a record for the number [p] exactly if some period with that number ended with something to
    record, and it has the counts of the last such period. *)
Theorem C117_history_partial : forall (P : prims) (cfg : gconf P) a b d l p e, let at_ l := s_st (steps cfg (init_gsys a b d) l) in
  t_log (at_ l) !! p = Some e <->
  exists l1 l2, l = (l1 ++ Period :: l2)%list /\ period_is (at_ l1) p /\ holds_something (at_ l1) /\ e_period e = p /\ counts (at_ l1) e /\
    forall l3 l4, l2 = (l3 ++ Period :: l4)%list -> period_is (at_ (l1 ++ Period :: l3)%list) p -> ~ holds_something (at_ (l1 ++ Period :: l3)%list).
Proof. exact @record_history. Qed.
Print Assumptions C117_history_partial.

(** No handler changes a record, however handlers interleave. *)
Theorem C117_handlers : forall (P : prims) (cfg : gconf P) Dl a b d c c', psteps (start_task cfg) (no_wipe cfg Dl) clock_step (init_pool a b d) c ->
  psteps (start_task cfg) (no_wipe cfg Dl) clock_step c c' -> t_log (p_st c') = t_log (p_st c).
Proof. exact @handlers_keep_records. Qed.
Print Assumptions C117_handlers.

(** Refuted: that a record, once made, is kept.  It is replaced an hour later. *)
Theorem C117_kept_refuted : exists (P : prims) (cfg : gconf P) a b d l1 l2 e e',
  let at_ l := t_log (s_st (steps cfg (init_gsys a b d) l)) in
  at_ l1 !! 7%Z = Some e /\ e_rev_init e = 1 /\ at_ (l1 ++ l2)%list !! 7%Z = Some e' /\ e_rev_init e' = 0.
Proof. exact replaced. Qed.
Print Assumptions C117_kept_refuted.

Example C117_ex : exists e, t_log (s_st (steps small (init_gsys "07" "11" "t") (take 3 two_minutes))) !! 7%Z = Some e /\
  e_sth_init e = 1 /\ e_rev_init e = 1 /\ e_conv_init e = "11".
Proof. exact small_record. Qed.

(** C118: only publishing a tree head stops a logger, and only if there are fewer than two certificates to publish or a CA cannot be reached. *)
Theorem C118_stops_only : forall (P : prims) (c : lconf P) up ty k l s o e s' o',
  lives c up (logger_init ty k) l s o -> logger_step c up s e = (s', o', false) ->
  exists t t1 t2, e = Publish t t1 t2 /\
    (length (first_copies (map tbs_certificate (this_period l))) < 2 \/ out_of_reach up (this_period l)).
Proof. exact @stops_only. Qed.
Print Assumptions C118_stops_only.

(** Exactly then, if no key identifier is used for two certificates. *)
Theorem C118_stops_exactly : forall (P : prims) (c : lconf P) up ty k l s o t t1 t2,
  lives c up (logger_init ty k) l s o -> ski_unique (first_copies (map tbs_certificate (this_period l))) ->
  (logger_step c up s (Publish t t1 t2)).2 = false <->
  length (first_copies (map tbs_certificate (this_period l))) < 2 \/ out_of_reach up (first_copies (map tbs_certificate (this_period l))).
Proof. exact @stops_exactly. Qed.
Print Assumptions C118_stops_exactly.

(** A run of a logger either goes through all its events or ends at such a publication. *)
Theorem C118_run : forall (P : prims) (c : lconf P) up l ty k l0 s o0, lives c up (logger_init ty k) l0 s o0 ->
  (exists s' o, lives c up s l s' o /\ logger_run c up s l = (s', o)) \/
  (exists l1 t t1 t2 l2 s1 o1 s' o2, l = (l1 ++ Publish t t1 t2 :: l2)%list /\ lives c up s l1 s1 o1 /\
     logger_step c up s1 (Publish t t1 t2) = (s', o2, false) /\ logger_run c up s l = (s', (o1 ++ o2 ++ [LDead])%list)).
Proof. exact @run_ends. Qed.
Print Assumptions C118_run.

Example C118_ex : exists s o, lives toy_logger (λ ca, String.eqb ca "nobody") (logger_init 0 0) two_same s o /\
  length (first_copies (map tbs_certificate (this_period two_same))) = 2 /\ ski_unique (first_copies (map tbs_certificate (this_period two_same))) /\
  out_of_reach (λ ca, String.eqb ca "nobody") (first_copies (map tbs_certificate (this_period two_same))).
Proof. exact small_stops. Qed.

(** C119: the convergence time in the record of a period is the second of that period when everything had arrived.
    Refuted: without convergence the record has the time of an earlier period. *)
Theorem C119_stale_refuted : exists (P : prims) (cfg : gconf P) a b d l e,
  let s := s_st (steps cfg (init_gsys a b d) l) in
  t_log s !! 8%Z = Some e /\ Z.of_nat (e_sth_init e + e_rev_init e + e_acc_init e) <> (gc_total_logger cfg + gc_total_ca cfg)%Z /\
  e_conv_init e <> "" /\ a <> "08" /\ (forall sec st, Tick "08" sec st ∈ l -> sec <> e_conv_init e).
Proof. exact stale_time. Qed.
Print Assumptions C119_stale_refuted.

(** The times change only to the current second; *)
Theorem C119_current_partial : forall (P : prims) (cfg : gconf P) y e, let s := s_st y in let s' := s_st (step cfg y e) in
  (t_conv s' = t_conv s \/ t_conv s' = k_second s) /\ (t_conv_init s' = t_conv_init s \/ t_conv_init s' = k_second s).
Proof. exact @step_conv. Qed.
Print Assumptions C119_current_partial.

(** the first one does when a new statement is the last one missing, *)
Theorem C119_statements_partial : forall (P : prims) (cfg : gconf P) s g, reachable cfg s -> 0 < cc_threshold (gc_crypto cfg) -> statement g ->
  verify (gc_crypto cfg) g = Accept -> statement_table s g !! get_id g = None -> g_signer g <> "" -> g_p0 g ∉ t_black s ->
  exists s' ts, run (handle cfg g) s = (s', ts, Done tt) /\
    (all_statements cfg s' -> t_conv_init s' = k_second s) /\ (~ all_statements cfg s' -> t_conv_init s' = t_conv_init s) /\ t_conv s' = t_conv s.
Proof. exact @statement_time. Qed.
Print Assumptions C119_statements_partial.

(** and the second one when a new aggregate is. *)
Theorem C119_finals_partial : forall (P : prims) (cfg : gconf P) s g f, reachable cfg s -> g_type g = full_type f -> verify (gc_crypto cfg) g = Accept ->
  get_tbl s (OFull f) !! get_id g = None -> g_p0 g ∉ t_black s ->
  exists s' ts, run (handle cfg g) s = (s', ts, Done tt) /\
    (all_finals cfg s' -> t_conv s' = k_second s) /\ (~ all_finals cfg s' -> t_conv s' = t_conv s) /\ t_conv_init s' = t_conv_init s.
Proof. exact @final_time. Qed.
Print Assumptions C119_finals_partial.

Example C119_ex : let s := s_st (steps small (init_gsys "07" "11" "t") [Recv 0 sth_a]) in
  statement rev_a /\ verify (gc_crypto small) rev_a = Accept /\ statement_table s rev_a !! get_id rev_a = None /\
  all_statements small (run (handle small rev_a) s).1.1.
Proof. cbn zeta. split; [by right|]. split; [vm_compute; reflexivity|]. split; [vm_compute; reflexivity|]. vm_compute. reflexivity. Qed.
