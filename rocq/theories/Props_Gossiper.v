(** C08-C25, C55, C56: the gossiper. *)
From Verif Require Import Bytes Hex Json Types Crypto Verify Prog Gossiper SpecCodec SpecVerify SpecGossiper Toy ProgFacts ToyFacts GossiperInv GossiperSeq GossiperWalks GossiperEvidence GossiperLocal GossiperStep GossiperSeqInv GossiperConflict GossiperFrag GossiperMore RefuteGossiper.
Open Scope string_scope.

(* ---------------------------------------------------------------- *)
(** C08: in every history of whole requests, timers, clock ticks and period
    changes the blacklist only grows ... *)
Theorem C08_blacklist_grows_sequential : forall (P : prims) (cfg : gconf P) a b c l1 l2,
  t_black (s_st (steps cfg (init_gsys a b c) l1)) ⊆ t_black (s_st (steps cfg (init_gsys a b c) (l1 ++ l2))).
Proof. exact @black_seq. Qed.
Print Assumptions C08_blacklist_grows_sequential.

(** ... and under every interleaving without the period change ... *)
Theorem C08_blacklist_grows_interleaved_partial : forall (P : prims) (cfg : gconf P) Dl a b d c c',
  psteps (start_task cfg) (no_wipe cfg Dl) clock_step (init_pool a b d) c ->
  psteps (start_task cfg) (no_wipe cfg Dl) clock_step c c' -> t_black (p_st c) ⊆ t_black (p_st c').
Proof. exact @no_wipe_black. Qed.
Print Assumptions C08_blacklist_grows_interleaved_partial.

(** ... but a period change running beside a handler loses an entry. *)
Theorem C08_blacklist_grows_refuted : exists (P : prims) (cfg : gconf P) a b d c c' e,
  gpsteps cfg (init_pool a b d) c /\ gpsteps cfg c c' /\ e ∈ t_black (p_st c) /\ e ∉ t_black (p_st c').
Proof. exact blacklist_race. Qed.
Print Assumptions C08_blacklist_grows_refuted.

Example C08_ex : t_black (s_st (steps cfg1 y1 [Recv 0 sth_a; Recv 0 sth_b])) = {[log1]} /\
  t_black (s_st (steps cfg1 y1 ([Recv 0 sth_a; Recv 0 sth_b] ++ [Period]))) = {[log1]}.
Proof. split; decide_it. Qed.

(* ---------------------------------------------------------------- *)
(** C09: handling an object about a blacklisted entity changes nothing ... *)
Theorem C09_blacklisted_object_ignored : forall (P : prims) (cfg : gconf P) g s,
  g_p0 g ∈ t_black s -> run (handle cfg g) s = (s, [], Done tt).
Proof. exact @handle_black. Qed.
Print Assumptions C09_blacklisted_object_ignored.

(** ... nor does its signing timer ... *)
Theorem C09_blacklisted_timer_ignored : forall (P : prims) (cfg : gconf P) g s,
  g_p0 g ∈ t_black s -> run (start_task cfg (SignLater g)) s = (s, [], Done tt).
Proof. exact @timer_black. Qed.
Print Assumptions C09_blacklisted_timer_ignored.

(** ... nor does the HTTP request that delivers it, unless it is an oversized
    REV_INIT or a REV_FRAG in optimised mode ... *)
Theorem C09_blacklisted_request_ignored_partial : forall (P : prims) (cfg : gconf P) n g s,
  g_p0 g ∈ t_black s -> (g_type g = REV_INIT -> (n <= gc_opt_threshold cfg)%Z) ->
  (g_type g = REV_FRAG -> gc_opt_mode cfg = false) ->
  run (object_handler cfg n g) s = (s, [], Done tt).
Proof. exact @object_black. Qed.
Print Assumptions C09_blacklisted_request_ignored_partial.

(** ... an oversized REV_INIT changes at most the payload cache ... *)
Theorem C09_blacklisted_payload_only_partial : forall (P : prims) (cfg : gconf P) n g s,
  g_p0 g ∈ t_black s -> g_type g <> REV_FRAG \/ gc_opt_mode cfg = false ->
  exists p r, run (object_handler cfg n g) s = (set_payload s p, [], r).
Proof. exact @object_black_rev. Qed.
Print Assumptions C09_blacklisted_payload_only_partial.

(** ... which it does change, and a REV fragment is stored and relayed under
    the empty entity. *)
Theorem C09_blacklisted_request_ignored_refuted : exists (P : prims) (cfg : gconf P) s n g n' g',
  reachable cfg s /\ g_p0 g ∈ t_black s /\ g_p0 g' ∈ t_black s /\
  t_payload (run (object_handler cfg n g) s).1.1 <> t_payload s /\
  sent (t_trace (run (object_handler cfg n' g') s).1.1) <> sent (t_trace s).
Proof. exact blacklisted_refuted. Qed.
Print Assumptions C09_blacklisted_request_ignored_refuted.

Example C09_ex : g_p0 sth_a ∈ t_black (s_st (steps cfg1 y1 [Recv 0 con_ab])).
Proof. decide_it. Qed.

(* ---------------------------------------------------------------- *)
(** C10: save and wipe, in any state. *)
Theorem C10_wipe_keeps_proofs : forall s, exists s', run periodic s = (s', [], Done tt) /\
  get_tbl s' OCon = get_tbl s OCon /\ t_black s' = t_black s /\
  (forall k, k <> OCon -> get_tbl s' k = ∅) /\ (forall f, get_frags s' f = ∅) /\ t_payload s' = ∅ /\
  t_trace s' = (t_trace s ++ [EvWiped])%list.
Proof. exact @periodic_run. Qed.
Print Assumptions C10_wipe_keeps_proofs.

Example C10_ex :
  t_sth_init (s_st (steps cfg1 y1 [Recv 0 sth_a; Recv 0 con_rev])) = {[get_id sth_a := sth_a]} /\
  t_con_init (s_st (steps cfg1 y1 [Recv 0 sth_a; Recv 0 con_rev; Period])) = {[get_id con_rev := con_rev]}.
Proof. split; decide_it. Qed.

(* ---------------------------------------------------------------- *)
(** C11: under every interleaving. *)
Theorem C11_stored_objects_verified : forall (P : prims) (cfg : gconf P) s,
  reachable cfg s -> tables_ok cfg s /\ payload_ok cfg s.
Proof. exact @reach_tables. Qed.
Print Assumptions C11_stored_objects_verified.

Example C11_ex : exists s, reachable cfg1 s /\ t_sth_init s = {[get_id sth_a := sth_a]} /\ t_payload s = {[get_id rev_a := rev_a]}.
Proof.
  exists (s_st (steps cfg1 y1 [Recv 0 sth_a; Recv 1000 rev_a])). split; [apply steps_reach|]. split; decide_it.
Qed.

(* ---------------------------------------------------------------- *)
(** C12: neither half holds ... *)
Theorem C12_fragments_and_fulls_verified_refuted : exists (P : prims) (cfg : gconf P) s f i g u full,
  reachable cfg s /\ g ∈ get_object_list s i f /\ verify (gc_crypto cfg) g <> Accept /\
  ToMonitor u full ∈ t_trace s /\ is_full full /\ verify (gc_crypto cfg) full <> Accept.
Proof. exact junk_refuted. Qed.
Print Assumptions C12_fragments_and_fulls_verified_refuted.

(** ... everything else the monitor gets was verified and stored ... *)
Theorem C12_monitor_gets_verified_partial : forall (P : prims) (cfg : gconf P) s u g,
  reachable cfg s -> ToMonitor u g ∈ t_trace s ->
  is_full g \/ (verify (gc_crypto cfg) g = Accept /\ EvStored g ∈ t_trace s /\ relayed g).
Proof. exact @monitor_verified. Qed.
Print Assumptions C12_monitor_gets_verified_partial.

(** ... and so was everything but fragments sent to gossipers. *)
Theorem C12_gossipers_get_verified_partial : forall (P : prims) (cfg : gconf P) s u ep g,
  reachable cfg s -> ToGossiper u ep (MObj g) ∈ t_trace s ->
  is_frag g \/ (verify (gc_crypto cfg) g = Accept /\ relayed g).
Proof. exact @gossip_verified. Qed.
Print Assumptions C12_gossipers_get_verified_partial.

Example C12_ex : exists s, reachable cfg1 s /\ ToMonitor "m1" sth_a ∈ t_trace s.
Proof. exists (s_st (steps cfg1 y1 [Recv 0 sth_a])). split; [apply steps_reach|]. decide_it. Qed.

(* ---------------------------------------------------------------- *)
(** C13: under every interleaving. *)
Theorem C13_buckets_bounded : forall (P : prims) (cfg : gconf P) s, reachable cfg s -> buckets_ok cfg s.
Proof. exact @reach_buckets. Qed.
Print Assumptions C13_buckets_bounded.

Example C13_ex : exists s, reachable cfg1 s /\ length (get_object_list s (get_id frag_g2) Sth) = 2.
Proof. exists (s_st (steps cfg1 y1 [Recv 0 frag_g2; Recv 0 frag_g3; Recv 0 junk_frag])). split; [apply steps_reach|]. vm_compute. reflexivity. Qed.

(* ---------------------------------------------------------------- *)
(** C14: the n-th value returned since the last wipe is min n Threshold ... *)
Theorem C14_counts_in_order : forall (P : prims) (cfg : gconf P) s f i n v,
  reachable cfg s -> i_type i = frag_type f ->
  befores i (since_wipe (t_trace s)) !! n = Some v -> v = min n (cc_threshold (gc_crypto cfg)).
Proof. exact @crossing. Qed.
Print Assumptions C14_counts_in_order.

(** ... so the crossing is seen once ... *)
Theorem C14_crossing_seen_once : forall (P : prims) (cfg : gconf P) s f i n m,
  let T := cc_threshold (gc_crypto cfg) in
  reachable cfg s -> i_type i = frag_type f ->
  befores i (since_wipe (t_trace s)) !! n = Some (T - 1) ->
  befores i (since_wipe (t_trace s)) !! m = Some (T - 1) -> 0 < T -> n = m.
Proof. exact @crossing_once. Qed.
Print Assumptions C14_crossing_seen_once.

(** ... the bucket holds as many fragments as there were calls, up to the threshold ... *)
Theorem C14_bucket_size : forall (P : prims) (cfg : gconf P) s f i,
  reachable cfg s -> i_type i = frag_type f ->
  length (get_object_list s i f) = min (length (befores i (since_wipe (t_trace s)))) (cc_threshold (gc_crypto cfg)).
Proof. exact @bucket_size. Qed.
Print Assumptions C14_bucket_size.

(** ... and every aggregate that was generated has exactly Threshold signers. *)
Theorem C14_aggregate_size : forall (P : prims) (cfg : gconf P) s g,
  reachable cfg s -> EvFull g ∈ t_trace s -> is_full g /\ length (g_signers g) = cc_threshold (gc_crypto cfg).
Proof. exact @full_size. Qed.
Print Assumptions C14_aggregate_size.

Example C14_ex : exists s, reachable cfg1 s /\ befores (get_id frag_g2) (since_wipe (t_trace s)) = [0; 1; 2]%list.
Proof. exists (s_st (steps cfg1 y1 [Recv 0 frag_g2; Period; Recv 0 frag_g2; Recv 0 frag_g3; Recv 0 junk_frag])). split; [apply steps_reach|]. vm_compute. reflexivity. Qed.

(* ---------------------------------------------------------------- *)
(** C15: one redelivery ... *)
Theorem C15_redelivery_ignored : forall (P : prims) (cfg : gconf P) s g,
  already_held s g -> run (handle cfg g) s = (s, [], Done tt).
Proof. exact @held_noop. Qed.
Print Assumptions C15_redelivery_ignored.

(** ... and any number of them. *)
Theorem C15_redeliveries_ignored : forall (P : prims) (cfg : gconf P) s l,
  Forall (already_held s) l -> handle_all cfg l s = s.
Proof. exact @held_noop_many. Qed.
Print Assumptions C15_redeliveries_ignored.

Example C15_ex : already_held (s_st (steps cfg1 y1 [Recv 0 sth_a; Recv 0 frag_g2])) sth_a /\
  already_held (s_st (steps cfg1 y1 [Recv 0 sth_a; Recv 0 frag_g2])) frag_g2.
Proof.
  split; [left; exists (OInit Sth), sth_a|right; exists Sth, [frag_g2], frag_g2].
  - split; [done|]. split; [vm_compute; reflexivity|]. done.
  - split; [done|]. split; [vm_compute; reflexivity|]. split; [by left|done].
Qed.

(* ---------------------------------------------------------------- *)
(** C16: in every history of whole requests ... *)
Theorem C16_conflict_published_sequential : forall (P : prims) (cfg : gconf P) a b c l g o f,
  let s := s_st (steps cfg (init_gsys a b c) l) in
  0 < cc_threshold (gc_crypto cfg) -> f <> Acc -> obj_kind g = KObj (OInit f) ->
  get_tbl s (OInit f) !! get_id g = Some o -> g_signer o = g_signer g -> (g_s0 o, g_s1 o) <> (g_s0 g, g_s1 g) ->
  verify (gc_crypto cfg) g = Accept -> g_p0 g ∉ t_black s ->
  let con := generate_con (k_period s, k_stamp s) o g in
  exists s', run (handle cfg g) s = (s', [], Done tt) /\
    get_tbl s' OCon = <[get_id con := con]> (get_tbl s OCon) /\ (forall k, k <> OCon -> get_tbl s' k = get_tbl s k) /\
    t_black s' = {[g_p0 g]} ∪ t_black s /\
    t_trace s' = (t_trace s ++ EvStored con :: map (λ url, ToGossiper url "/gossip/con_init" (MObj con)) (gc_neighbours cfg)
                  ++ [ToMonitor (gc_owner cfg) con])%list.
Proof. exact @conflict_published. Qed.
Print Assumptions C16_conflict_published_sequential.

(** ... but two requests handled at once both pass. *)
Theorem C16_conflict_published_refuted : exists (P : prims) (cfg : gconf P) a b d c g h,
  gpsteps cfg (init_pool a b d) c /\ p_threads c = [] /\
  EvStored g ∈ t_trace (p_st c) /\ EvStored h ∈ t_trace (p_st c) /\ statement g /\
  get_id g = get_id h /\ g_signer g = g_signer h /\ g_s0 g <> g_s0 h /\
  t_con_init (p_st c) = ∅ /\ t_black (p_st c) = ∅.
Proof. exact conflict_race. Qed.
Print Assumptions C16_conflict_published_refuted.

Example C16_ex : let s := s_st (steps cfg1 y1 [Recv 0 sth_a]) in
  get_tbl s (OInit Sth) !! get_id sth_b = Some sth_a /\ verify (gc_crypto cfg1) sth_b = Accept /\ g_p0 sth_b ∉ t_black s /\
  t_black (run (handle cfg1 sth_b) s).1.1 = {[log1]}.
Proof. cbn zeta. split; [vm_compute; reflexivity|]. split; [vm_compute; reflexivity|]. split; decide_it. Qed.

(* ---------------------------------------------------------------- *)
(** C17: under every interleaving, if statements carry a signer ... *)
Theorem C17_honest_not_blacklisted_partial : forall (P : prims) (cfg : gconf P) e (Dl : gobj -> Prop),
  no_evidence e Dl -> (forall g, Dl g -> g_p0 g = e -> statement g -> g_signer g <> "") ->
  forall a b d c, psteps (start_task cfg) (delivering cfg Dl) clock_step (init_pool a b d) c -> e ∉ t_black (p_st c).
Proof. exact @no_evidence_pool. Qed.
Print Assumptions C17_honest_not_blacklisted_partial.

(** ... without that, copies of a single valid statement get its author
    blacklisted. *)
Theorem C17_honest_not_blacklisted_refuted : exists (P : prims) (cfg : gconf P) e Dl a b d c,
  no_evidence e Dl /\ (forall g, Dl g -> verify (gc_crypto cfg) g = Accept) /\
  psteps (start_task cfg) (delivering cfg Dl) clock_step (init_pool a b d) c /\ e ∈ t_black (p_st c).
Proof. exact honest_convicted. Qed.
Print Assumptions C17_honest_not_blacklisted_refuted.

Example C17_ex : no_evidence log1 (λ g, g = sth_a \/ g = con_rev) /\ g_signer sth_a <> "".
Proof.
  split; [split|done].
  - intros g [-> | ->] H; [cbn; split; [|split; [|split]]; discriminate|]. by vm_compute in H.
  - intros g h [-> | ->] [-> | ->] H _ Hi; [done|by vm_compute in Hi|by vm_compute in H|done].
Qed.

(* ---------------------------------------------------------------- *)
(** C18: a new valid statement is stored, announced to each neighbour
    once and sent to the monitor once, in every reachable state ... *)
Theorem C18_new_statement_relayed : forall (P : prims) (cfg : gconf P) s g,
  reachable cfg s -> 0 < cc_threshold (gc_crypto cfg) -> statement g -> verify (gc_crypto cfg) g = Accept ->
  statement_table s g !! get_id g = None -> g_signer g <> "" -> g_p0 g ∉ t_black s ->
  exists s', run (handle cfg g) s = (s', [SignLater g], Done tt) /\
    statement_table s' g = <[get_id g := g]> (statement_table s g) /\
    t_trace s' = (t_trace s ++ EvStored g :: publication cfg g)%list.
Proof. exact @new_statement. Qed.
Print Assumptions C18_new_statement_relayed.

(** ... so is a new valid conflict proof, whose entity is blacklisted ... *)
Theorem C18_new_conflict_relayed : forall (P : prims) (cfg : gconf P) s g,
  reachable cfg s -> is_con g -> verify (gc_crypto cfg) g = Accept ->
  t_con_init s !! get_id g = None -> g_p0 g ∉ t_black s ->
  exists s', run (handle cfg g) s = (s', [], Done tt) /\
    t_con_init s' = <[get_id g := g]> (t_con_init s) /\ t_black s' = {[g_p0 g]} ∪ t_black s /\
    t_trace s' = (t_trace s ++ EvStored g :: publication cfg g)%list.
Proof. exact @new_conflict. Qed.
Print Assumptions C18_new_conflict_relayed.

(** ... a rejected one changes nothing ... *)
Theorem C18_rejected_not_relayed : forall (P : prims) (cfg : gconf P) s g,
  reachable cfg s -> 0 < cc_threshold (gc_crypto cfg) -> statement g \/ is_con g -> verify (gc_crypto cfg) g = Reject ->
  run (handle cfg g) s = (s, [], Done tt).
Proof. exact @rejected_noop. Qed.
Print Assumptions C18_rejected_not_relayed.

(** ... and an accusation is never sent on. *)
Theorem C18_accusation_not_relayed : forall (P : prims) (cfg : gconf P) s g,
  reachable cfg s -> g_type g = ACC_INIT ->
  (forall u ep, ToGossiper u ep (MObj g) ∉ t_trace s) /\ (forall u, ToMonitor u g ∉ t_trace s).
Proof. exact @acc_not_relayed. Qed.
Print Assumptions C18_accusation_not_relayed.

Example C18_ex : let s := s_st (steps cfg1 y1 [Recv 0 sth_a]) in
  statement rev_a /\ verify (gc_crypto cfg1) rev_a = Accept /\ statement_table s rev_a !! get_id rev_a = None /\
  (announcement cfg1 rev_a).1 = "/gossip/new_payload_notification" /\ gc_neighbours cfg1 = ["g2"; "g3"]%list.
Proof. cbn zeta. split; [by right|]. split; [vm_compute; reflexivity|]. split; [vm_compute; reflexivity|]. split; vm_compute; reflexivity. Qed.
Example C18_ex_rejected : verify (gc_crypto cfg1) (toy_init STH_INIT "07" "k2" log1 "a" "y") = Reject.
Proof. vm_compute. reflexivity. Qed.

(* ---------------------------------------------------------------- *)
(** C19: stripping and restoring ... *)
Theorem C19_strip_restore : forall s g o,
  t_payload s !! mkgid (g_period g) REV_INIT (g_p0 g) = Some o ->
  g_p0 o = g_p0 g -> g_p1 o = g_p1 g -> g_p2 o = g_p2 g -> reconstruct_payload s (remove_payload g) = g.
Proof. exact @strip_restore. Qed.
Print Assumptions C19_strip_restore.

(** ... so a stripped fragment is handled as the original ... *)
Theorem C19_stripped_handled_alike : forall (P : prims) (cfg : gconf P) n s g o,
  gc_opt_mode cfg = true -> g_type g = REV_FRAG ->
  t_payload s !! mkgid (g_period g) REV_INIT (g_p0 g) = Some o ->
  g_p0 o = g_p0 g -> g_p1 o = g_p1 g -> g_p2 o = g_p2 g ->
  run (object_handler cfg n (remove_payload g)) s = run (handle cfg g) s.
Proof. exact @stripped_handled. Qed.
Print Assumptions C19_stripped_handled_alike.

(** ... and with nothing cached the entity is lost. *)
Theorem C19_uncached_loses_entity : forall s g,
  t_payload s !! mkgid (g_period g) REV_INIT (g_p0 g) = None ->
  g_p0 (reconstruct_payload s g) = "" /\ g_p1 (reconstruct_payload s g) = "" /\ g_p2 (reconstruct_payload s g) = "".
Proof. exact @uncached_loses_entity. Qed.
Print Assumptions C19_uncached_loses_entity.

Example C19_ex : let s := s_st (steps cfg1 y1 [Recv 1000 rev_a]) in
  t_payload s !! mkgid (g_period rev_frag) REV_INIT (g_p0 rev_frag) = Some rev_a /\ g_p1 rev_a = g_p1 rev_frag /\
  remove_payload rev_frag <> rev_frag.
Proof. cbn zeta. split; [vm_compute; reflexivity|]. split; [vm_compute; reflexivity|]. by vm_compute. Qed.

(* ---------------------------------------------------------------- *)
(** C20: whatever is signed was verified and stored before, under every
    interleaving (for the blacklist see C09_blacklisted_timer_ignored). *)
Theorem C20_signs_only_accepted : forall (P : prims) (cfg : gconf P) s g fr,
  let c := gc_crypto cfg in
  reachable cfg s -> EvSigned g fr ∈ t_trace s ->
  EvStored g ∈ t_trace s /\ verify c g = Accept /\ is_init g /\
  g_period fr = g_period g /\ g_p0 fr = g_p0 g /\ g_p1 fr = g_p1 g /\ g_p2 fr = g_p2 g /\
  g_signer fr = cc_self c /\ is_frag fr /\
  exists sf, cc_thr_sign c (covered g) = Some sf /\ g_s0 fr = sigfrag_string sf.
Proof. exact @signed_accepted. Qed.
Print Assumptions C20_signs_only_accepted.

Theorem C20_blacklisted_not_signed : forall (P : prims) (cfg : gconf P) g s,
  g_p0 g ∈ t_black s -> run (start_task cfg (SignLater g)) s = (s, [], Done tt).
Proof. exact @timer_black. Qed.
Print Assumptions C20_blacklisted_not_signed.

Example C20_ex : length (signed_pairs (t_trace (s_st (steps cfg1 y1 [Recv 0 sth_a; Fire 0])))) = 1.
Proof. vm_compute. reflexivity. Qed.

(* ---------------------------------------------------------------- *)
(** C21: statements naming different signers are both signed ... *)
Theorem C21_signs_once_refuted : exists (P : prims) (cfg : gconf P) a b c l,
  Forall (λ e, e <> Period) l /\
  let tr := t_trace (s_st (steps cfg (init_gsys a b c) l)) in
  exists g1 f1 g2 f2, EvSigned g1 f1 ∈ tr /\ EvSigned g2 f2 ∈ tr /\ get_id g1 = get_id g2 /\ covered g1 <> covered g2.
Proof. exact sign_twice. Qed.
Print Assumptions C21_signs_once_refuted.

(** ... but not if the signer field is a function of the identifier. *)
Theorem C21_signs_once_partial : forall (P : prims) (cfg : gconf P) sg a b c l g1 g2 f1 f2,
  Forall (one_signer sg) l ->
  let tr := t_trace (s_st (steps cfg (init_gsys a b c) l)) in
  EvSigned g1 f1 ∈ tr -> EvSigned g2 f2 ∈ tr -> statement g1 -> get_id g1 = get_id g2 -> g1 = g2.
Proof. exact @sign_once_seq. Qed.
Print Assumptions C21_signs_once_partial.

Example C21_ex : Forall (one_signer i_entity) [Recv 0 sth_a; Recv 0 sth_b; Fire 0].
Proof. repeat constructor; intros; done. Qed.

(* ---------------------------------------------------------------- *)
(** C22: three nested handler calls always suffice ... *)
Theorem C22_nesting_at_most_three : forall (P : prims) (cfg : gconf P) n g s,
  run (handle_n cfg (3 + n) g) s = run (handle cfg g) s.
Proof. exact @handle_fuel. Qed.
Print Assumptions C22_nesting_at_most_three.

(** ... and the bound is never hit under any interleaving. *)
Theorem C22_bound_never_hit : forall (P : prims) (cfg : gconf P) a b c y,
  gpsteps cfg (init_pool a b c) y -> OutOfFuel ∉ p_crashes y.
Proof. exact @no_fuel. Qed.
Print Assumptions C22_bound_never_hit.

(** Two levels do not suffice: accusation, fragment, aggregate. *)
Example C22_ex_depth :
  let s := s_st (steps cfg1 y1 [Recv 0 (toy_frag ACC_FRAG "07" "g2" 10 log1 "a" "y")]) in
  let g := toy_init ACC_INIT "07" "k1" log1 "a" "y" in
  (run (handle_n cfg1 2 g) s).2 = Crashed OutOfFuel /\ (run (handle cfg1 g) s).2 = Done tt.
Proof. cbn zeta. split; vm_compute; reflexivity. Qed.

(* ---------------------------------------------------------------- *)
(** C23: an object naming an unknown signer panics ... *)
Theorem C23_no_panic_refuted : exists (P : prims) (cfg : gconf P) a b c l, s_crashes (steps cfg (init_gsys a b c) l) <> [].
Proof. exact panic_unknown. Qed.
Print Assumptions C23_no_panic_refuted.

(** ... a period change beside a handler panics on valid objects only ... *)
Theorem C23_no_panic_wipe_refuted : exists (P : prims) (cfg : gconf P) (Dl : gobj -> Prop) a b d c,
  (forall g, Dl g -> verify (gc_crypto cfg) g = Accept) /\
  psteps (start_task cfg) (delivering cfg Dl) clock_step (init_pool a b d) c /\ p_crashes c <> [].
Proof. exact panic_race. Qed.
Print Assumptions C23_no_panic_wipe_refuted.

(** ... and there is no other reason: whole requests ... *)
Theorem C23_no_panic_sequential_partial : forall (P : prims) (cfg : gconf P) a b d l,
  cc_thr_scheme (gc_crypto cfg) = "bls" ->
  Forall (λ e, match e with Recv _ g => verify (gc_crypto cfg) g <> Panics | _ => True end) l ->
  s_crashes (steps cfg (init_gsys a b d) l) = [].
Proof. exact @steps_nocrash. Qed.
Print Assumptions C23_no_panic_sequential_partial.

(** ... or interleaved ones without the period change. *)
Theorem C23_no_panic_interleaved_partial : forall (P : prims) (cfg : gconf P) a b d c,
  cc_thr_scheme (gc_crypto cfg) = "bls" ->
  psteps (start_task cfg) (no_wipe cfg (λ g, verify (gc_crypto cfg) g <> Panics)) clock_step (init_pool a b d) c ->
  p_crashes c = [].
Proof. exact @nocrash_pool. Qed.
Print Assumptions C23_no_panic_interleaved_partial.

Example C23_ex : Forall (λ e, match e with Recv _ g => verify (gc_crypto cfg1) g <> Panics | _ => True end)
  [Recv 0 sth_a; Recv 0 junk_frag; Recv 0 frag_g2; Period; Recv 0 junk_full].
Proof. repeat constructor; by vm_compute. Qed.

(* ---------------------------------------------------------------- *)
(** C24: fragments of one period can yield an aggregate of the next ... *)
Theorem C24_full_period_refuted : exists (P : prims) (cfg : gconf P) a b c l full,
  (forall n g, Recv n g ∈ l -> verify (gc_crypto cfg) g = Accept /\ g_period g = "07") /\
  EvFull full ∈ t_trace (s_st (steps cfg (init_gsys a b c) l)) /\ g_period full <> "07".
Proof. exact full_period_refuted. Qed.
Print Assumptions C24_full_period_refuted.

(** ... the aggregate keeps everything if the clock still shows their period. *)
Theorem C24_full_period_partial : forall (P : prims) (cfg : gconf P) l ty s s' ts full i p1 p2,
  run (generate_full cfg l ty) s = (s', ts, Done full) ->
  k_period s = i_period i -> (forall g, g ∈ l -> g_period g = i_period i /\ g_p0 g = i_entity i /\ g_p1 g = p1 /\ g_p2 g = p2) ->
  g_period full = i_period i /\ g_p0 full = i_entity i /\ g_p1 full = p1 /\ g_p2 full = p2.
Proof. exact @full_keeps. Qed.
Print Assumptions C24_full_period_partial.

Example C24_ex :
  match (run (generate_full cfg1 [frag_g2; frag_g3] STH_FULL) (s_st (steps cfg1 y1 []))).2 with
  | Done full => verify (gc_crypto cfg1) full = Accept | _ => False end.
Proof. vm_compute. reflexivity. Qed.

(* ---------------------------------------------------------------- *)
(** C25: handling an object ... *)
Theorem C25_handling_is_local : forall (P : prims) (cfg : gconf P) s g, reachable cfg s ->
  agree_outside (λ x, x = g_p0 g) s (run (handle cfg g) s).1.1 /\ sends_about (λ x, x = g_p0 g) s (run (handle cfg g) s).1.1.
Proof. exact @reach_local. Qed.
Print Assumptions C25_handling_is_local.

(** ... or delivering one touches only its entity, or the empty one ... *)
Theorem C25_delivery_is_local_partial : forall (P : prims) (cfg : gconf P) s n g, reachable cfg s ->
  agree_outside (λ x, x = g_p0 g \/ x = "") s (run (object_handler cfg n g) s).1.1 /\
  sends_about (λ x, x = g_p0 g \/ x = "") s (run (object_handler cfg n g) s).1.1.
Proof. exact @reach_object_local. Qed.
Print Assumptions C25_delivery_is_local_partial.

(** ... the latter only for an uncached REV fragment ... *)
Theorem C25_cached_delivery_is_local_partial : forall (P : prims) (cfg : gconf P) s n g, reachable cfg s ->
  g_type g <> REV_FRAG \/ gc_opt_mode cfg = false \/ is_Some (t_payload s !! mkgid (g_period g) REV_INIT (g_p0 g)) ->
  agree_outside (λ x, x = g_p0 g) s (run (object_handler cfg n g) s).1.1 /\
  sends_about (λ x, x = g_p0 g) s (run (object_handler cfg n g) s).1.1.
Proof. exact @reach_object_local_cached. Qed.
Print Assumptions C25_cached_delivery_is_local_partial.

(** ... which does happen. *)
Theorem C25_delivery_is_local_refuted : exists (P : prims) (cfg : gconf P) s n g i,
  reachable cfg s /\ i_entity i <> g_p0 g /\
  get_frags (run (object_handler cfg n g) s).1.1 Rev !! i <> get_frags s Rev !! i.
Proof. exact local_refuted. Qed.
Print Assumptions C25_delivery_is_local_refuted.

Example C25_ex : let s := s_st (steps cfg1 y1 [Recv 0 sth_a; Recv 0 frag_g2; Recv 1000 rev_a]) in
  reachable cfg1 s /\ is_Some (t_payload s !! mkgid (g_period rev_frag) REV_INIT (g_p0 rev_frag)) /\
  t_trace (run (object_handler cfg1 0 rev_frag) s).1.1 <> t_trace s.
Proof.
  cbn zeta. split; [apply steps_reach|]. split; [decide_it|].
  intros H. apply (f_equal length) in H. vm_compute in H. discriminate.
Qed.

(* ---------------------------------------------------------------- *)
(** C55: a statement accepted earlier in the period can be accepted again
    after another one with a different signer field ... *)
Theorem C55_accepted_once_refuted : exists (P : prims) (cfg : gconf P) a b c l g,
  let s := s_st (steps cfg (init_gsys a b c) l) in
  Forall (λ e, e <> Period) l /\ statement g /\ EvStored g ∈ t_trace s /\
  sent (t_trace (run (handle cfg g) s).1.1) <> sent (t_trace s).
Proof. exact relay_again_refuted. Qed.
Print Assumptions C55_accepted_once_refuted.

(** ... but not if the signer field is a function of the identifier. *)
Theorem C55_accepted_once_partial : forall (P : prims) (cfg : gconf P) sg a b c l g,
  Forall (one_signer sg) l ->
  let s := s_st (steps cfg (init_gsys a b c) l) in
  EvStored g ∈ t_trace s -> statement g -> run (handle cfg g) s = (s, [], Done tt).
Proof. exact @relay_once_seq. Qed.
Print Assumptions C55_accepted_once_partial.

(* ---------------------------------------------------------------- *)
(** C56: one junk fragment delivered first prevents the aggregate ... *)
Theorem C56_honest_fragments_aggregate_refuted : exists (P : prims) (cfg : gconf P) a b c l i p1 p2 g h,
  let s := s_st (steps cfg (init_gsys a b c) l) in
  cc_threshold (gc_crypto cfg) = 2 /\ Forall (λ e, e <> Period) l /\ i_type i = STH_FRAG /\
  honest_fragment (gc_crypto cfg) i p1 p2 g /\ honest_fragment (gc_crypto cfg) i p1 p2 h /\ g_signer g <> g_signer h /\
  (exists n, Recv n g ∈ l) /\ (exists n, Recv n h ∈ l) /\ t_sth_full s = ∅ /\ t_black s = ∅.
Proof. exact poisoned_refuted. Qed.
Print Assumptions C56_honest_fragments_aggregate_refuted.

(** ... on an empty bucket a threshold of honest fragments, in any order,
    yields a verified aggregate that is stored and sent to the monitor. *)
Theorem C56_honest_fragments_aggregate_partial : forall (P : prims) (cfg : gconf P),
  let c := gc_crypto cfg in let T := cc_threshold c in
  agg_correct P -> fast_perm P -> (forall sg : bls_sig P, bls_deser (bls_ser sg) = Some sg) ->
  cc_thr_scheme c = "bls" -> forall f i p1 p2 l s, reachable cfg s -> i_entity i <> "" -> i_entity i ∉ t_black s ->
  i_type i = frag_type f -> get_object_list s i f = [] ->
  get_tbl s (OFull f) !! mkgid (k_period s) (full_type f) (i_entity i) = None ->
  0 < T -> length l = T -> Forall (honest_fragment c i p1 p2) l -> distinct_sigs l ->
  let s' := handle_all cfg l s in
  exists full, get_tbl s' (OFull f) !! get_id full = Some full /\ verify c full = Accept /\
    get_id full = mkgid (k_period s) (full_type f) (i_entity i) /\ g_p1 full = p1 /\ g_p2 full = p2 /\
    g_signers full = map g_signer l /\ ToMonitor (gc_owner cfg) full ∈ t_trace s' /\ EvFull full ∈ t_trace s'.
Proof. exact @reach_frags_complete. Qed.
Print Assumptions C56_honest_fragments_aggregate_partial.

Example C56_ex : Forall (honest_fragment (gc_crypto cfg1) (get_id frag_g2) "a" "y") [frag_g2; frag_g3] /\ distinct_sigs [frag_g2; frag_g3].
Proof.
  split.
  - repeat constructor.
    + eexists (mkfrag (P:=toy) _ "g2"), 10%Z. split; [reflexivity|]. split; [reflexivity|]. split; vm_compute; reflexivity.
    + eexists (mkfrag (P:=toy) _ "g3"), 100%Z. split; [reflexivity|]. split; [reflexivity|]. split; vm_compute; reflexivity.
  - decide_it.
Qed.
