(** C131: large revocation objects are announced by their hash and fetched. *)
From Verif Require Import Bytes Hex Json Types Crypto Verify Prog Gossiper SpecGossiper Toy Fetch RefuteGossiper RefuteFetch.
Open Scope string_scope.

(** A new large object whose request announced its size is stored, cached and announced to all neighbours; a gossiper that gets the announcement asks the announcing
    gossiper for the object, unless it has cached an object with this hash; and as long as the object is cached, the answer to that question is the object. *)
Theorem C131_fetched_partial : forall (P : prims) (cA : gconf P) s g n,
  reachable cA s -> 0 < cc_threshold (gc_crypto cA) -> g_type g = REV_INIT -> verify (gc_crypto cA) g = Accept ->
  t_rev_init s !! get_id g = None -> g_signer g <> "" -> g_p0 g <> "" -> g_p0 g ∉ t_black s ->
  (gc_opt_threshold cA < Z.of_nat (String.length (gobj_marshal g)))%Z -> (gc_opt_threshold cA < n)%Z ->
  let note u := mknote u (g_period g) REV_INIT (g_p0 g) (obj_hash (P:=P) g) in
  let self c := cc_self (gc_crypto c) in
  exists s', run (object_handler cA n g) s = (s', [SignLater g], Done tt) /\
    t_trace s' = (t_trace s ++ EvStored g :: map (λ u, ToGossiper u "/gossip/new_payload_notification" (MNote (note (self cA)))) (gc_neighbours cA) ++ [ToMonitor (gc_owner cA) g])%list /\
    t_payload s' !! get_id g = Some g /\
    (forall cB sB, (forall o, t_payload sB !! get_id g = Some o -> obj_hash (P:=P) o <> obj_hash (P:=P) g) ->
      run (notification_handler cB (note (self cA))) sB = (add_trace sB [ToGossiper (self cA) "/gossip/new_payload_request" (MNote (note (self cB)))], [], Done tt)) /\
    (forall cB s2, t_payload s2 !! get_id g = Some g ->
      run (request_handler (note (self cB))) s2 = (add_trace s2 [ToGossiper (self cB) "/gossip/rev_init" (MObj g)], [], Done tt)).
Proof. exact @fetched. Qed.
Print Assumptions C131_fetched_partial.

(** What is cached is not asked for again. *)
Theorem C131_known_not_asked : forall (P : prims) (cB : gconf P) sB sender g,
  g_type g = REV_INIT -> t_payload sB !! get_id g = Some g ->
  run (notification_handler cB (mknote sender (g_period g) REV_INIT (g_p0 g) (obj_hash (P:=P) g))) sB = (sB, [], Done tt).
Proof. exact (fun P cB sB sender g Ht Hp => not_asked cB sB sender g g Ht Hp eq_refl). Qed.
Print Assumptions C131_known_not_asked.

(** If the request that brought the object did not announce its size (a chunked body), the object is announced to all neighbours but the questions are not answered. *)
Theorem C131_uncached_refuted : forall (P : prims) (cA : gconf P) s g n,
  reachable cA s -> 0 < cc_threshold (gc_crypto cA) -> g_type g = REV_INIT -> verify (gc_crypto cA) g = Accept ->
  t_rev_init s !! get_id g = None -> t_payload s !! get_id g = None -> g_signer g <> "" -> g_p0 g <> "" -> g_p0 g ∉ t_black s ->
  (gc_opt_threshold cA < Z.of_nat (String.length (gobj_marshal g)))%Z -> (n <= gc_opt_threshold cA)%Z ->
  exists s', run (object_handler cA n g) s = (s', [SignLater g], Done tt) /\
    (forall u, u ∈ gc_neighbours cA -> ToGossiper u "/gossip/new_payload_notification" (MNote (mknote (cc_self (gc_crypto cA)) (g_period g) REV_INIT (g_p0 g) (obj_hash (P:=P) g))) ∈ t_trace s') /\
    (forall sender h, run (request_handler (mknote sender (g_period g) REV_INIT (g_p0 g) h)) s' = (s', [], Done tt)).
Proof. exact @announced_uncached. Qed.
Print Assumptions C131_uncached_refuted.

(** The hash does not determine the object: a gossiper that has cached a copy with the payload split at another place does not ask for the object. *)
Theorem C131_same_hash_refuted : exists (P : prims) (cfg : gconf P) s g g', reachable cfg s /\ g_type g = REV_INIT /\ verify (gc_crypto cfg) g = Accept /\ g <> g' /\
  t_payload s !! get_id g = Some g' /\ t_rev_init s !! get_id g <> Some g /\
  run (notification_handler cfg (mknote "g2" (g_period g) REV_INIT (g_p0 g) (obj_hash (P:=P) g))) s = (s, [], Done tt).
Proof. exact moved_not_fetched. Qed.
Print Assumptions C131_same_hash_refuted.

(** The hypotheses of C131_fetched_partial and C131_uncached_refuted hold for a revocation object at a gossiper that has just started; the neighbours are two. *)
Example C131_ex : reachable cfg1 (s_st y1) /\ 0 < cc_threshold (gc_crypto cfg1) /\ g_type rev_a = REV_INIT /\ verify (gc_crypto cfg1) rev_a = Accept /\
  t_rev_init (s_st y1) !! get_id rev_a = None /\ t_payload (s_st y1) !! get_id rev_a = None /\ g_signer rev_a <> "" /\ g_p0 rev_a <> "" /\ g_p0 rev_a ∉ t_black (s_st y1) /\
  (gc_opt_threshold cfg1 < Z.of_nat (String.length (gobj_marshal rev_a)))%Z /\ (gc_opt_threshold cfg1 < 1000)%Z /\ (-1 <= gc_opt_threshold cfg1)%Z.
Proof. exact fetch_instance. Qed.
Example C131_ex_neighbours : gc_neighbours cfg1 = ["g2"; "g3"]%list.
Proof. reflexivity. Qed.
