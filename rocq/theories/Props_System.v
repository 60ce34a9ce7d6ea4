(** The whole system. *)
From Verif Require Import Bytes Hex Json Types Crypto Verify Bitset Cert CertPool CTngExt Revocation Prog Gossiper Network Overlap System SpecGossiper SpecCodec SpecSystem SystemFacts SystemHonest Toy RefuteLogger RefuteCA RefuteSystem.
From Verif Require Logger CA Monitor Client.
Open Scope string_scope.

(** C92: an entity that answers every query with an object that verifies, shows nobody two different signatures for one identifier, and
    about which no outsider hands in accusations, conflict proofs or objects in its name, is never accused, blacklisted or held guilty by anybody; what all
    other entities do, the order of events and the loss of messages do not matter. *)
Theorem C92_only_the_guilty {P : prims} z x (S : sysconf P) a b d lt ct e l :
  let W0 := world_init x S a b d lt ct in
  e <> "" ->
  no_evidence e (shown z x S W0 l) ->
  (forall g, shown z x S W0 l g -> g_p0 g = e -> statement g -> g_signer g <> "") ->
  well_answered z x S W0 e l ->
  unconvicted e (wrun z x S W0 l).
Proof. exact (@never_convicted P z x S a b d lt ct e l). Qed.
Print Assumptions C92_only_the_guilty.

(** The hypotheses are met by the logger in a run in which it publishes, both monitors query it, the gossipers sign its head and the
    client loads it. *)
Example C92_ex :
  let W0 := world_init toy_x toy_sys "12" "s" "t" (λ _, (0, 0)%Z) (λ _, (0%Z, 0%Z, toy_draw 1 "a", toy_draw 2 "b")) in
  lg <> "" /\ no_evidence lg (shown toy_z toy_x toy_sys W0 good4) /\
  (forall g, shown toy_z toy_x toy_sys W0 good4 g -> g_p0 g = lg -> statement g -> g_signer g <> "") /\
  well_answered toy_z toy_x toy_sys W0 lg good4 /\
  exists s, w_clients (wrun toy_z toy_x toy_sys W0 good4) !! "c1" = Some s /\ is_Some (Client.cl_sth s !! "localhost:9100@12").
Proof.
  destruct good_facts as (_ & _ & _ & H4 & (H5 & H6) & H7).
  split; [discriminate|]. exact (conj H5 (conj H6 (conj H4 H7))).
Qed.

(** C93: a logger that runs the code in normal mode (type 0), publishes at most once for each minute, is asked only after it has published for the
    current minute, with no messages to or from it lost and no outsider posting about it, is never convicted - REFUTED: it is, by all gossipers, if it
    publishes in minute 59 ... *)
Theorem C93_refuted : exists (S : sysconf toy) lt ct e c l,
  let W0 := world_init toy_x S "00" "s" "t" lt ct in
  logger_identity S e c /\ (lt e).1 = 0%Z /\ outsiders_silent e l /\ NoDup (publications e l) /\ in_time_60 toy_z toy_x S W0 e l /\
  size (sy_gossipers S) = 2 /\
  forall u y, on_nodes (w_net (wrun toy_z toy_x S W0 l)) !! u = Some y -> e ∈ t_black (p_st y).
Proof. exact bad_convicted. Qed.
Print Assumptions C93_refuted.

(** ... and true if the queries come in minute n + 1 after a publication in minute n (which excludes publications in minute 59 that are queried). *)
Theorem C93_normal_logger_partial {P : prims} z x (S : sysconf P) a b d lt ct e c l :
  let W0 := world_init x S a b d lt ct in
  logger_identity S e c -> (lt e).1 = 0%Z -> outsiders_silent e l -> NoDup (publications e l) -> in_time z x S W0 e l ->
  unconvicted e (wrun z x S W0 l).
Proof. exact (@normal_logger_safe P z x S a b d lt ct e c l). Qed.
Print Assumptions C93_normal_logger_partial.

Example C93_ex :
  let W0 := world_init toy_x toy_sys "12" "s" "t" (λ _, (0, 0)%Z) (λ _, (0%Z, 0%Z, toy_draw 1 "a", toy_draw 2 "b")) in
  logger_identity toy_sys lg (Logger.mklconf (P:=toy) lg [ca] "k1") /\ outsiders_silent lg good4 /\ NoDup (publications lg good4) /\ in_time toy_z toy_x toy_sys W0 lg good4 /\
  exists s, w_clients (wrun toy_z toy_x toy_sys W0 good4) !! "c1" = Some s /\ is_Some (Client.cl_sth s !! "localhost:9100@12").
Proof. destruct good_facts as (H1 & H2 & H3 & _ & _ & H7). exact (conj toy_identity (conj H1 (conj H2 (conj H3 H7)))). Qed.
