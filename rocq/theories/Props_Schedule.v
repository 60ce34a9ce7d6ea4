(** C104-C107: the clock. *)
From Verif Require Import Bytes Bitset Clock Types Crypto Verify Merkle Cert CertPool CTngExt Logger Revocation CA Schedule Toy
  SpecCodec SpecMerkle SpecCert SpecLogger SpecCA SpecSchedule ScheduleFacts RefuteLogger RefuteCA RefuteSchedule.
From Coq Require Import QArith.
Open Scope Z_scope.

(** C104: the period task of every process runs exactly once in every minute.  Proved for an MMD of 60 seconds as long
    as the delays of all timers so far add up to less than a minute: run [k] is in the [k]-th minute after the first. *)
Theorem C104_gossiper_partial : forall t late k, delays late -> t mod 1000 + total late k < 60000 ->
  minute_no (run_time (gossiper_start 60 t) 60 late k) = minute_no t + 1 + Z.of_nat k.
Proof. exact gossiper_aligned. Qed.
Print Assumptions C104_gossiper_partial.

Theorem C104_monitor_partial : forall t d late k, delays late -> 0 <= d -> t mod 1000 + d + total late k < 60000 ->
  minute_no (run_time (monitor_start 0 60 d t) 60 late k) = minute_no t + 1 + Z.of_nat k.
Proof. exact monitor_aligned. Qed.
Print Assumptions C104_monitor_partial.

Theorem C104_logger_partial : forall t late k, delays late -> 1000 + total late k <= 60000 ->
  minute_no (run_time (logger_start t) 60 late k) = first_minute t + Z.of_nat k.
Proof. exact logger_aligned. Qed.
Print Assumptions C104_logger_partial.

Theorem C104_ca_partial : forall t late k, delays late -> 2000 + total late k <= 60000 ->
  minute_no (run_time (ca_start t) 60 late k) = first_minute t + Z.of_nat k.
Proof. exact ca_aligned. Qed.
Print Assumptions C104_ca_partial.

Example C104_ex : delays (λ _, 3) /\ 45296789 mod 1000 + total (λ _, 3) 1000 < 60000 /\
  minute_no (run_time (gossiper_start 60 45296789) 60 (λ _, 3) 1000) = 754 + 1 + 1000.
Proof. split; [intros k; discriminate|]. vm_compute. split; reflexivity. Qed.

(** REFUTED: each timer is set relative to the previous one, so however small the delays are, as long as there are some,
    a minute is left out sooner or later; *)
Theorem C104_late_timers_refuted : forall start late, (forall k, 1 <= late k) ->
  exists m, minute_no start < m /\ forall k, minute_no (run_time start 60 late k) <> m.
Proof. exact late_skips. Qed.
Print Assumptions C104_late_timers_refuted.

(** and for an MMD that is not a multiple of a minute it is not even true at the start: processes start at a full minute,
    whatever the time they are called, exactly if it is one. *)
Theorem C104_other_mmd_refuted : forall mmd,
  (forall t, second_of (gossiper_start mmd t) = 0) <-> exists j, 1 <= j /\ mmd = 60 * j.
Proof. exact starts_at_second_0. Qed.
Print Assumptions C104_other_mmd_refuted.

(** C105: whenever a normal logger is started, in every later minute it answers requests with a tree head for that minute,
    of the certificates in its pool at the end of the minute before. *)
Theorem C105_head_every_minute_partial : forall (P : prims) (c : lconf P) up k0 t late late' l now s o,
  delays late -> delays late' ->
  (forall k, first_minute t + Z.of_nat k <= minute_no now -> total late k + late' k <= 19000) ->
  timed logger_ending (close_time (logger_start t) 60 late late') now l ->
  lives c up (logger_init 0 k0) (map snd l) s o ->
  first_minute t < minute_no now -> minute_of now <> 0 ->
  exists l1 a p t1 t2 l2 s1 o1 g root tr, l = (l1 ++ (a, Publish p t1 t2) :: l2)%list /\ minute_no a + 1 = minute_no now /\
    lives c up (logger_init 0 k0) (map snd l1) s1 o1 /\
    snd (request_sth s (Z.to_nat (minute_of now))) = Answer g /\ g_type g = STH_INIT /\ g_signer g = lc_signer c /\
    g_period g = unpadded (Z.to_nat (minute_of now)) /\
    extract_root_hash g = Some root /\ new_tree (h_sha256 P) (map c_subject (get_certs (l_pool s1))) = Some tr /\ mt_root tr = root.
Proof. exact @head_every_minute. Qed.
Print Assumptions C105_head_every_minute_partial.

(** The same for a normal CA. *)
Theorem C105_revocation_every_minute_partial : forall (P : prims) x z (c : caconf P) cc k0 d1 d2 t late late' l now, gzip_ok z ->
  delays late -> delays late' ->
  (forall k, first_minute t + Z.of_nat k <= minute_no now -> total late k + late' k <= 18000) ->
  timed ca_ending (close_time (ca_start t) 60 late late') now l -> indexes_ok (map snd l) ->
  first_minute t < minute_no now -> minute_of now <> 0 ->
  let s0 := ca_init x c 0 k0 d1 d2 in
  exists l1 a p m l2 g, l = (l1 ++ (a, CPeriod p m) :: l2)%list /\ minute_no a + 1 = minute_no now /\
    snd (request_rev (ca_run x z c cc s0 (map snd l)) (Z.to_nat (minute_of now))) = Answer g /\
    g_type g = REV_INIT /\ g_signer g = cac_signer c /\ g_period g = unpadded (Z.to_nat (minute_of now)) /\
    all_published x z c cc s0 (map snd l1 ++ [CPeriod p m]) = (all_published x z c cc s0 (map snd l1) ++ [g])%list.
Proof. exact @revocation_every_minute. Qed.
Print Assumptions C105_revocation_every_minute_partial.

Example C105_ex : let now := 60000 * (Z.of_nat 7 + 1) + 20 in
  delays (λ _, 5) /\ delays (λ _, 7) /\
  (forall k, first_minute (t_start 7) + Z.of_nat k <= minute_no now -> total (λ _, 5) k + 7 <= 18000) /\
  timed logger_ending (close_time (logger_start (t_start 7)) 60 (λ _, 5) (λ _, 7)) now (one_period 7) /\
  first_minute (t_start 7) < minute_no now /\ minute_of now = (Z.of_nat 7 + 1) mod 60.
Proof. exact (one_period_facts 7 ltac:(repeat constructor)). Qed.
Example C105_ex_lives : exists s o, lives toy_logger all_up (logger_init 0 0) (map snd (one_period 7)) s o.
Proof. exact ex_7. Qed.
Example C105_ex_ca : timed ca_ending (close_time (ca_start (t_start 7)) 60 (λ _, 5) (λ _, 7)) (60000 * (Z.of_nat 7 + 1) + 20) (ca_period 7).
Proof. exact (ca_period_timed 7 ltac:(repeat constructor)). Qed.

(** REFUTED: in the first minute of every hour there is none. *)
Theorem C105_full_hour_refuted : exists (P : prims) (c : lconf P) up k0 t late late' l now s o,
  delays late /\ delays late' /\
  (forall k, first_minute t + Z.of_nat k <= minute_no now -> total late k + late' k <= 18000) /\
  timed logger_ending (close_time (logger_start t) 60 late late') now l /\
  lives c up (logger_init 0 k0) (map snd l) s o /\
  first_minute t < minute_no now /\ snd (request_sth s (Z.to_nat (minute_of now))) = Answer zero_obj.
Proof. exact full_hour_refuted. Qed.
Print Assumptions C105_full_hour_refuted.

Theorem C105_ca_full_hour_refuted : exists (P : prims) x z (c : caconf P) cc k0 d1 d2 t late late' l now,
  gzip_ok z /\ delays late /\ delays late' /\
  (forall k, first_minute t + Z.of_nat k <= minute_no now -> total late k + late' k <= 18000) /\
  timed ca_ending (close_time (ca_start t) 60 late late') now l /\ indexes_ok (map snd l) /\
  first_minute t < minute_no now /\
  snd (request_rev (ca_run x z c cc (ca_init x c 0 k0 d1 d2) (map snd l)) (Z.to_nat (minute_of now))) = Answer zero_obj.
Proof. exact ca_full_hour_refuted. Qed.
Print Assumptions C105_ca_full_hour_refuted.

(** In every history the answer in minute 0 is the empty object. *)
Theorem C105_never_at_full_hour : forall (P : prims) (c : lconf P) up k0 l s o,
  lives c up (logger_init 0 k0) l s o -> snd (request_sth s 0) = Answer zero_obj.
Proof. exact @no_head_at_full_hour. Qed.
Print Assumptions C105_never_at_full_hour.

Theorem C105_ca_never_at_full_hour : forall (P : prims) x z (c : caconf P) cc k0 d1 d2 l,
  snd (request_rev (ca_run x z c cc (ca_init x c 0 k0 d1 d2) l) 0) = Answer zero_obj.
Proof. exact @no_revocation_at_full_hour. Qed.
Print Assumptions C105_ca_never_at_full_hour.

(** C106: a monitor started at [t] that is told the largest difference [D] between clocks: the queries of its [k]-th round, [travel] ms on
    their way, arrive at a logger or CA whose clock is [skew] ahead (or behind, if negative) in the same minute on that clock in which the
    round began on the monitor's. *)
Theorem C106_asked_in_time : forall t d D late late' k travel skew, delays late -> delays late' -> 0 <= d -> 0 < D -> 0 <= travel ->
  let start := monitor_start 0 60 d t in
  - D <= skew <= D ->
  t mod 1000 + d + total late k + late' k + 2 * D + travel < 60000 ->
  minute_no (query_time start 60 D late late' k + travel + skew) = minute_no t + 1 + Z.of_nat k.
Proof. exact asked_in_time. Qed.
Print Assumptions C106_asked_in_time.

(** Without the wait, a query to a process whose clock is behind arrives in the minute before. *)
Theorem C106_asked_too_early : forall t d late late' k travel skew, delays late -> 0 <= d -> 0 <= travel ->
  let start := monitor_start 0 60 d t in
  - 60000 <= skew < - (t mod 1000 + d + total late k + travel) ->
  minute_no (query_time start 60 0 late late' k + travel + skew) = minute_no t + Z.of_nat k.
Proof. exact asked_too_early. Qed.
Print Assumptions C106_asked_too_early.

Example C106_ex : let start := monitor_start 0 60 400 45296789 in
  45296789 mod 1000 + 400 + total (λ _, 3) 1000 + 3 + 2 * 1000 + 290 < 60000 /\
  minute_no (query_time start 60 1000 (λ _, 3) (λ _, 3) 1000 + 290 + -1000) = 754 + 1 + 1000 /\
  -60000 <= -2000 < - (45296789 mod 1000 + 400 + total (λ _, 3) 10 + 290) /\
  minute_no (query_time start 60 0 (λ _, 3) (λ _, 3) 10 + 290 + -2000) = 754 + 10.
Proof. vm_compute. repeat split; discriminate. Qed.

(** C107: a random delay is at least the lower and less than the upper limit, and any such value is possible; *)
Theorem C107_within_limits : forall lo hi draws n, random_latency lo hi draws = Some n -> lo <= n < hi.
Proof. exact latency_in_bounds. Qed.
Print Assumptions C107_within_limits.

Theorem C107_any_value : forall lo hi n, 0 <= lo -> lo <= n < hi -> exists e, (0 <= e)%Q /\ random_latency lo hi [e] = Some n.
Proof. exact latency_any. Qed.
Print Assumptions C107_any_value.

(** it is found as soon as a random number is below 1, if the limits differ, ... *)
Theorem C107_ends_partial : forall lo hi draws, 0 <= lo -> lo < hi -> Forall (λ e, 0 <= e)%Q draws ->
  (exists n, random_latency lo hi draws = Some n) <-> Exists (λ e, e < 1)%Q draws.
Proof. exact latency_returns. Qed.
Print Assumptions C107_ends_partial.

Example C107_ex : random_latency 20 290 [3 # 2; 1 # 2; 1 # 3]%Q = Some 155 /\ Forall (λ e, 0 <= e)%Q [3 # 2; 1 # 2; 1 # 3]%Q.
Proof. split; [reflexivity|]. repeat constructor; discriminate. Qed.

(** ... REFUTED: and never if they are equal. *)
Theorem C107_equal_limits_refuted : forall lo hi draws, hi <= lo -> random_latency lo hi draws = None.
Proof. exact latency_hangs. Qed.
Print Assumptions C107_equal_limits_refuted.

(** The other function for the purpose, which is not in use, panics then. *)
Theorem C107_uniform : forall lo hi r, (forall n, 0 < n -> 0 <= r n < n) ->
  (lo < hi -> exists n, compute_random_latency lo hi r = Some n /\ lo <= n < hi) /\
  (hi <= lo -> compute_random_latency lo hi r = None).
Proof. exact uniform_latency. Qed.
Print Assumptions C107_uniform.
