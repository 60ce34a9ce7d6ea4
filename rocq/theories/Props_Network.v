(** Properties of networks of gossipers: C54, C84 to C88, C111. *)
From Verif Require Import Bytes Hex Json Types Crypto Verify Prog Gossiper Network Overlap SpecCodec SpecVerify SpecGossiper SpecNetwork SpecOverlap Toy ToyFacts NetworkFacts OverlapFacts OverlapSmall RefuteGossiper RefuteNetwork RefuteOverlap.
Open Scope string_scope.

(** C54: once nothing is on its way, every statement handed to one
    gossiper is stored by all of them and has a verified aggregate, naming
    [T] of them, at each of them; both went to the monitors. *)
Theorem C54_honest_network_converges_partial : forall (P : prims) (cfgs : gmap string (gconf P)) T p (Gs : list gobj),
  honest_network cfgs T -> valid_statements cfgs p Gs ->
  agg_correct P -> fast_perm P -> (forall sg : bls_sig P, bls_deser (bls_ser sg) = Some sg) ->
  forall sec st l, Forall (allowed p Gs) l -> quiescent (net_run cfgs (net_init cfgs p sec st) l) ->
  forall u g, NHand u g ∈ l -> is_Some (cfgs !! u) ->
  forall v c, cfgs !! v = Some c -> exists y full, nt_nodes (net_run cfgs (net_init cfgs p sec st) l) !! v = Some y /\
    statement_table (s_st y) g !! get_id g = Some g /\ ToMonitor (gc_owner c) g ∈ t_trace (s_st y) /\
    full_table (s_st y) g !! mkgid p (full_name g) (g_p0 g) = Some full /\ verify (gc_crypto c) full = Accept /\
    g_p1 full = g_p1 g /\ g_p2 full = g_p2 g /\ ToMonitor (gc_owner c) full ∈ t_trace (s_st y) /\
    length (g_signers full) = T /\ NoDup (g_signers full) /\ (forall w, w ∈ g_signers full -> is_Some (cfgs !! w)) /\
    s_crashes y = [] /\ t_black (s_st y) = ∅.
Proof. exact @network_converges. Qed.
Print Assumptions C54_honest_network_converges_partial.

(** From any point such a state is reached. *)
Theorem C54_quiescence_reached_partial : forall (P : prims) (cfgs : gmap string (gconf P)) T p (Gs : list gobj),
  honest_network cfgs T -> valid_statements cfgs p Gs ->
  agg_correct P -> fast_perm P -> (forall sg : bls_sig P, bls_deser (bls_ser sg) = Some sg) ->
  forall sec st l, Forall (allowed p Gs) l -> exists l', Forall (allowed p Gs) l' /\
  quiescent (net_run cfgs (net_init cfgs p sec st) (l ++ l')).
Proof. exact @quiescence_reached. Qed.
Print Assumptions C54_quiescence_reached_partial.

Example C54_ex_laws : agg_correct toy /\ fast_perm toy /\ (forall sg : bls_sig toy, bls_deser (bls_ser sg) = Some sg).
Proof. exact (conj toy_agg (conj toy_perm toy_deser)). Qed.
Example C54_ex_network : honest_network plain3 2 /\ valid_statements plain3 "07" [sth_a; rev_a].
Proof. exact plain3_ok. Qed.
Example C54_ex_run : Forall (allowed "07" [sth_a; rev_a]) run_plain /\ quiescent (net_run plain3 (net_init plain3 "07" "s" "t") run_plain) /\
  NHand "g1" sth_a ∈ run_plain /\ NHand "g2" rev_a ∈ run_plain /\ effective_steps plain3 (net_init plain3 "07" "s" "t") run_plain = 42.
Proof. exact run_plain_facts. Qed.

(** C54 is false when the handlers of a gossiper overlap: two of them can
    store the same fragment, the two copies count twice, and the gossiper
    then does not make a fragment of its own, which others need. *)
Theorem C54_overlapping_handlers_refuted : exists (P : prims) (cfgs : gmap string (gconf P)) T p (Gs : list gobj) sec st l u g v (y : gpool),
  honest_network cfgs T /\ valid_statements cfgs p Gs /\
  agg_correct P /\ fast_perm P /\ (forall sg : bls_sig P, bls_deser (bls_ser sg) = Some sg) /\
  Forall (oallowed p Gs) l /\ oquiescent (onet_run cfgs (onet_init cfgs p sec st) l) /\
  OHand u g ∈ l /\ is_Some (cfgs !! u) /\ g_type g = STH_INIT /\
  on_nodes (onet_run cfgs (onet_init cfgs p sec st) l) !! v = Some y /\ t_sth_full (p_st y) = ∅.
Proof. exact overlap_refuted. Qed.
Print Assumptions C54_overlapping_handlers_refuted.

(** What remains true: some gossiper makes an aggregate, ... *)
Theorem C54_overlapping_some_aggregate_partial : forall (P : prims) (cfgs : gmap string (gconf P)) T p (Gs : list gobj),
  honest_network cfgs T -> valid_statements cfgs p Gs ->
  agg_correct P -> fast_perm P -> (forall sg : bls_sig P, bls_deser (bls_ser sg) = Some sg) ->
  forall sec st l, Forall (oallowed p Gs) l -> oquiescent (onet_run cfgs (onet_init cfgs p sec st) l) ->
  forall u g, OHand u g ∈ l -> is_Some (cfgs !! u) ->
  exists v c (y : gpool) full, cfgs !! v = Some c /\ on_nodes (onet_run cfgs (onet_init cfgs p sec st) l) !! v = Some y /\
    full_table (p_st y) g !! mkgid p (full_name g) (g_p0 g) = Some full /\ verify (gc_crypto c) full = Accept /\
    g_p1 full = g_p1 g /\ g_p2 full = g_p2 g /\ ToMonitor (gc_owner c) full ∈ t_trace (p_st y).
Proof. exact @overlap_some_full. Qed.
Print Assumptions C54_overlapping_some_aggregate_partial.

(** ... and all do if no gossiper stored a fragment twice. *)
Theorem C54_overlapping_no_repeats_partial : forall (P : prims) (cfgs : gmap string (gconf P)) T p (Gs : list gobj),
  honest_network cfgs T -> valid_statements cfgs p Gs ->
  agg_correct P -> fast_perm P -> (forall sg : bls_sig P, bls_deser (bls_ser sg) = Some sg) ->
  forall sec st l, Forall (oallowed p Gs) l -> oquiescent (onet_run cfgs (onet_init cfgs p sec st) l) ->
  forall u g, OHand u g ∈ l -> is_Some (cfgs !! u) ->
  (forall w (x : gpool), on_nodes (onet_run cfgs (onet_init cfgs p sec st) l) !! w = Some x -> NoDup (fragments_held p (p_st x) g)) ->
  forall v c, cfgs !! v = Some c -> exists (y : gpool) full, on_nodes (onet_run cfgs (onet_init cfgs p sec st) l) !! v = Some y /\
    full_table (p_st y) g !! mkgid p (full_name g) (g_p0 g) = Some full /\ verify (gc_crypto c) full = Accept /\
    g_p1 full = g_p1 g /\ g_p2 full = g_p2 g /\ ToMonitor (gc_owner c) full ∈ t_trace (p_st y).
Proof. exact @overlap_all_full. Qed.
Print Assumptions C54_overlapping_no_repeats_partial.

Example C54_ex_overlapping_run : Forall (oallowed "07" [sth_a; rev_a]) orun_plain /\ oquiescent (onet_run plain3 (onet_init plain3 "07" "s" "t") orun_plain) /\
  OHand "g1" sth_a ∈ orun_plain /\ OHand "g2" rev_a ∈ orun_plain /\
  (forall g, g ∈ [sth_a; rev_a] -> forall w (x : gpool), on_nodes (onet_run plain3 (onet_init plain3 "07" "s" "t") orun_plain) !! w = Some x ->
     NoDup (fragments_held "07" (p_st x) g)) /\
  oeffective_steps plain3 (onet_init plain3 "07" "s" "t") orun_plain = 42.
Proof. exact orun_plain_facts. Qed.

(** C84: how many deliveries and timers a set of statements causes, in
    whatever order, and however often each statement is handed in. *)
Theorem C84_traffic_bound : forall (P : prims) (cfgs : gmap string (gconf P)) T p (Gs : list gobj),
  honest_network cfgs T -> valid_statements cfgs p Gs ->
  agg_correct P -> fast_perm P -> (forall sg : bls_sig P, bls_deser (bls_ser sg) = Some sg) ->
  (forall u c, cfgs !! u = Some c -> NoDup (gc_neighbours c)) ->
  forall sec st l, Forall (allowed p Gs) l ->
  effective_steps cfgs (net_init cfgs p sec st) l <= length Gs * statement_traffic (size cfgs) T.
Proof. exact @traffic_bound. Qed.
Print Assumptions C84_traffic_bound.

Theorem C84_traffic_total : forall (P : prims) (cfgs : gmap string (gconf P)) T p (Gs : list gobj),
  honest_network cfgs T -> valid_statements cfgs p Gs ->
  agg_correct P -> fast_perm P -> (forall sg : bls_sig P, bls_deser (bls_ser sg) = Some sg) ->
  (forall u c, cfgs !! u = Some c -> NoDup (gc_neighbours c)) ->
  forall sec st l, NoDup Gs -> Forall (allowed p Gs) l -> quiescent (net_run cfgs (net_init cfgs p sec st) l) ->
  (forall g, g ∈ Gs -> exists u, is_Some (cfgs !! u) /\ NHand u g ∈ l) ->
  effective_steps cfgs (net_init cfgs p sec st) l = length Gs * statement_traffic (size cfgs) T.
Proof. exact @traffic_total. Qed.
Print Assumptions C84_traffic_total.

(** With overlapping handlers there can be fewer. *)
Theorem C84_overlapping_total_refuted : exists (P : prims) (cfgs : gmap string (gconf P)) T p (Gs : list gobj) sec st l,
  honest_network cfgs T /\ valid_statements cfgs p Gs /\
  agg_correct P /\ fast_perm P /\ (forall sg : bls_sig P, bls_deser (bls_ser sg) = Some sg) /\
  (forall u c, cfgs !! u = Some c -> NoDup (gc_neighbours c)) /\ NoDup Gs /\
  Forall (oallowed p Gs) l /\ oquiescent (onet_run cfgs (onet_init cfgs p sec st) l) /\
  (forall g, g ∈ Gs -> exists u, is_Some (cfgs !! u) /\ OHand u g ∈ l) /\
  oeffective_steps cfgs (onet_init cfgs p sec st) l < length Gs * statement_traffic (size cfgs) T.
Proof. exact overlap_traffic_refuted. Qed.
Print Assumptions C84_overlapping_total_refuted.

Example C84_ex_neighbours : forall u c, plain3 !! u = Some c -> NoDup (gc_neighbours c).
Proof. exact plain3_neighbours. Qed.

(** C85 is false with the optimisation for large revocation statements
    switched on: for small statements nobody gets an aggregate, for large
    ones some may not. *)
Theorem C85_small_revocation_refuted : exists (P : prims) (cfgs : gmap string (gconf P)) T p sec st g l,
  honest_network cfgs T /\ T < size cfgs /\ statement g /\ g_type g = REV_INIT /\ g_period g = p /\
  (forall u c, cfgs !! u = Some c -> verify (gc_crypto c) g = Accept /\ gc_opt_mode c = true /\ 
     (Z.of_nat (len (gobj_marshal g)) <= gc_opt_threshold c)%Z) /\
  Forall (allowed p [g]) l /\ (exists u, is_Some (cfgs !! u) /\ NHand u g ∈ l) /\
  quiescent (net_run cfgs (net_init cfgs p sec st) l) /\
  forall u y, nt_nodes (net_run cfgs (net_init cfgs p sec st) l) !! u = Some y -> t_rev_full (s_st y) = ∅.
Proof. exact small_rev_refuted. Qed.
Print Assumptions C85_small_revocation_refuted.

Theorem C85_large_revocation_refuted : exists (P : prims) (cfgs : gmap string (gconf P)) T p sec st g l,
  honest_network cfgs T /\ statement g /\ g_type g = REV_INIT /\ g_period g = p /\
  (forall u c, cfgs !! u = Some c -> verify (gc_crypto c) g = Accept /\ gc_opt_mode c = true /\ 
     (gc_opt_threshold c < Z.of_nat (len (gobj_marshal g)))%Z) /\
  Forall (allowed p [g]) l /\ (exists u, is_Some (cfgs !! u) /\ NHand u g ∈ l) /\
  quiescent (net_run cfgs (net_init cfgs p sec st) l) /\
  exists u y, nt_nodes (net_run cfgs (net_init cfgs p sec st) l) !! u = Some y /\ t_rev_full (s_st y) = ∅.
Proof. exact large_rev_refuted. Qed.
Print Assumptions C85_large_revocation_refuted.

(** With it switched off, and statements below the limit, they converge. *)
Theorem C85_revocations_converge_partial : forall (P : prims) (cfgs : gmap string (gconf P)) T p g,
  honest_network cfgs T ->
  agg_correct P -> fast_perm P -> (forall sg : bls_sig P, bls_deser (bls_ser sg) = Some sg) ->
  g_type g = REV_INIT -> g_period g = p -> g_signer g <> "" ->
  (forall u c, cfgs !! u = Some c -> verify (gc_crypto c) g = Accept /\ gc_opt_mode c = false /\
     (Z.of_nat (len (gobj_marshal g)) <= gc_opt_threshold c)%Z /\
     forall v d, cfgs !! v = Some d -> (Z.of_nat (len (gobj_marshal (fragment_by d g))) <= gc_opt_threshold c)%Z) ->
  forall sec st l, Forall (allowed p [g]) l -> quiescent (net_run cfgs (net_init cfgs p sec st) l) ->
  (exists u, is_Some (cfgs !! u) /\ NHand u g ∈ l) ->
  forall v c, cfgs !! v = Some c -> exists y full, nt_nodes (net_run cfgs (net_init cfgs p sec st) l) !! v = Some y /\
    t_rev_init (s_st y) !! get_id g = Some g /\ t_rev_full (s_st y) !! mkgid p REV_FULL (g_p0 g) = Some full /\
    verify (gc_crypto c) full = Accept /\ g_p1 full = g_p1 g /\ g_p2 full = g_p2 g.
Proof. exact @revocations_converge. Qed.
Print Assumptions C85_revocations_converge_partial.

(** C86 is false for overlapping handlers: an aggregate can be made of two copies of one
    fragment. *)
Theorem C86_one_signer_refuted : exists (P : prims) (cfg : gconf P) (Dl : gobj -> Prop) a b d c i full,
  (forall g, Dl g -> verify (gc_crypto cfg) g = Accept) /\
  psteps (start_task cfg) (no_wipe cfg Dl) clock_step (init_pool a b d) c /\
  t_sth_full (p_st c) !! i = Some full /\ verify (gc_crypto cfg) full = Accept /\ 2 <= cc_threshold (gc_crypto cfg) /\
  exists u, forall v, v ∈ g_signers full -> v = u.
Proof. exact one_signer_refuted. Qed.
Print Assumptions C86_one_signer_refuted.

(** With one handler at a time, at any moment of a run of an honest network. *)
Theorem C86_distinct_signers_partial : forall (P : prims) (cfgs : gmap string (gconf P)) T p (Gs : list gobj),
  honest_network cfgs T -> valid_statements cfgs p Gs ->
  agg_correct P -> fast_perm P -> (forall sg : bls_sig P, bls_deser (bls_ser sg) = Some sg) ->
  forall sec st l, Forall (allowed p Gs) l ->
  forall v y g full, nt_nodes (net_run cfgs (net_init cfgs p sec st) l) !! v = Some y -> g ∈ Gs ->
    full_table (s_st y) g !! mkgid p (full_name g) (g_p0 g) = Some full ->
    length (g_signers full) = T /\ NoDup (g_signers full) /\ (forall w, w ∈ g_signers full -> is_Some (cfgs !! w)) /\
    g_p1 full = g_p1 g /\ g_p2 full = g_p2 g.
Proof. exact @distinct_signers. Qed.
Print Assumptions C86_distinct_signers_partial.

(** C87: the bound of C84 however handlers overlap. *)
Theorem C87_overlapping_traffic_bound : forall (P : prims) (cfgs : gmap string (gconf P)) T p (Gs : list gobj),
  honest_network cfgs T -> valid_statements cfgs p Gs ->
  agg_correct P -> fast_perm P -> (forall sg : bls_sig P, bls_deser (bls_ser sg) = Some sg) ->
  (forall u c, cfgs !! u = Some c -> NoDup (gc_neighbours c)) ->
  forall sec st l, Forall (oallowed p Gs) l ->
  oeffective_steps cfgs (onet_init cfgs p sec st) l <= length Gs * statement_traffic (size cfgs) T.
Proof. exact @overlap_traffic_bound. Qed.
Print Assumptions C87_overlapping_traffic_bound.

(** C88: however handlers overlap, every statement reaches every gossiper
    and its monitor, ... *)
Theorem C88_overlapping_stored : forall (P : prims) (cfgs : gmap string (gconf P)) T p (Gs : list gobj),
  honest_network cfgs T -> valid_statements cfgs p Gs ->
  agg_correct P -> fast_perm P -> (forall sg : bls_sig P, bls_deser (bls_ser sg) = Some sg) ->
  forall sec st l, Forall (oallowed p Gs) l -> oquiescent (onet_run cfgs (onet_init cfgs p sec st) l) ->
  forall u g, OHand u g ∈ l -> is_Some (cfgs !! u) ->
  forall v c, cfgs !! v = Some c -> exists y : gpool, on_nodes (onet_run cfgs (onet_init cfgs p sec st) l) !! v = Some y /\
    statement_table (p_st y) g !! get_id g = Some g /\ ToMonitor (gc_owner c) g ∈ t_trace (p_st y).
Proof. exact @overlap_stored. Qed.
Print Assumptions C88_overlapping_stored.

(** ... no handler dies and nobody is blamed, at any moment, ... *)
Theorem C88_overlapping_unharmed : forall (P : prims) (cfgs : gmap string (gconf P)) T p (Gs : list gobj),
  honest_network cfgs T -> valid_statements cfgs p Gs ->
  agg_correct P -> fast_perm P -> (forall sg : bls_sig P, bls_deser (bls_ser sg) = Some sg) ->
  forall sec st l, Forall (oallowed p Gs) l ->
  forall v (y : gpool), on_nodes (onet_run cfgs (onet_init cfgs p sec st) l) !! v = Some y ->
  p_crashes y = [] /\ t_black (p_st y) = ∅.
Proof. exact @overlap_unharmed. Qed.
Print Assumptions C88_overlapping_unharmed.

(** ... and from any point the network comes to rest. *)
Theorem C88_overlapping_quiescence : forall (P : prims) (cfgs : gmap string (gconf P)) T p (Gs : list gobj),
  honest_network cfgs T -> valid_statements cfgs p Gs ->
  agg_correct P -> fast_perm P -> (forall sg : bls_sig P, bls_deser (bls_ser sg) = Some sg) ->
  forall sec st l, Forall (oallowed p Gs) l -> exists l', Forall (oallowed p Gs) l' /\
  oquiescent (onet_run cfgs (onet_init cfgs p sec st) (l ++ l')).
Proof. exact @overlap_quiescence_reached. Qed.
Print Assumptions C88_overlapping_quiescence.

(** C111: with a threshold of at most two, all gossipers make a verified
    aggregate and send it to their monitors, however handlers overlap
    (with three they may not, [C54_overlapping_handlers_refuted]). *)
Theorem C111_small_threshold_converges : forall (P : prims) (cfgs : gmap string (gconf P)) T p (Gs : list gobj),
  honest_network cfgs T -> valid_statements cfgs p Gs ->
  agg_correct P -> fast_perm P -> (forall sg : bls_sig P, bls_deser (bls_ser sg) = Some sg) ->
  (forall u c, cfgs !! u = Some c -> NoDup (gc_neighbours c)) -> T <= 2 ->
  forall sec st l, Forall (oallowed p Gs) l -> oquiescent (onet_run cfgs (onet_init cfgs p sec st) l) ->
  forall u g, OHand u g ∈ l -> is_Some (cfgs !! u) ->
  forall v c, cfgs !! v = Some c -> exists (y : gpool) full, on_nodes (onet_run cfgs (onet_init cfgs p sec st) l) !! v = Some y /\
    full_table (p_st y) g !! mkgid p (full_name g) (g_p0 g) = Some full /\ verify (gc_crypto c) full = Accept /\
    g_p1 full = g_p1 g /\ g_p2 full = g_p2 g /\ ToMonitor (gc_owner c) full ∈ t_trace (p_st y).
Proof. exact @overlap_small_threshold. Qed.
Print Assumptions C111_small_threshold_converges.

Example C111_ex_hypotheses : honest_network plain3 2 /\ valid_statements plain3 "07" [sth_a; rev_a] /\
  (forall u c, plain3 !! u = Some c -> NoDup (gc_neighbours c)).
Proof. exact (conj (proj1 plain3_ok) (conj (proj2 plain3_ok) plain3_neighbours)). Qed.
Example C111_ex_run : Forall (oallowed "07" [sth_a; rev_a]) orun_plain /\ oquiescent (onet_run plain3 (onet_init plain3 "07" "s" "t") orun_plain) /\
  OHand "g1" sth_a ∈ orun_plain /\ OHand "g2" rev_a ∈ orun_plain.
Proof. exact (conj (proj1 orun_plain_facts) (conj (proj1 (proj2 orun_plain_facts)) (conj (proj1 (proj2 (proj2 orun_plain_facts))) (proj1 (proj2 (proj2 (proj2 orun_plain_facts))))))). Qed.
