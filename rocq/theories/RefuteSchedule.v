(** Examples about the clock. *)
From Verif Require Import Bytes Bitset Clock Types Crypto Verify Merkle Cert CertPool CTngExt Logger Revocation CA Schedule Toy
  SpecCodec SpecMerkle SpecCert SpecLogger SpecCA SpecSchedule LoggerFacts ScheduleFacts RefuteLogger RefuteCA.
From Coq Require Import Lia ZArith Sorted QArith.
Open Scope Z_scope.

(** A logger that starts 300 ms into minute [m], with two certificates and one tree head. *)
Definition one_period (m : nat) : list (Z * levent) :=
  let t := 60000 * Z.of_nat m in
  [(t + 1000, Submit (toy_cert "s1" "k1" 1)); (t + 1500, Submit (toy_cert "s2" "k2" 2));
   (t + 40307, Publish (at_min m) (at_min m) (at_min m)); (t + 40350, EndPeriod)].

Lemma one_period_timed m : (m < 60)%nat ->
  timed logger_ending (close_time (60000 * Z.of_nat m + 300) 60 (λ _, 5) (λ _, 7)) (60000 * (Z.of_nat m + 1) + 20) (one_period m).
Proof.
  intros Hm. assert (Hc : forall k, close_time (60000 * Z.of_nat m + 300) 60 (λ _, 5) (λ _, 7) k = 60000 * Z.of_nat m + 40307 + 60005 * Z.of_nat k).
  { intros k. unfold close_time. rewrite run_time_eq by lia.
    assert (total (λ _, 5) k = 5 * Z.of_nat k) as ->; [|lia]. induction k as [|k IH]; [done|]. rewrite total_S, IH. lia. }
  unfold one_period. split.
  - cbn [map fst]. repeat (constructor; [|repeat (constructor; [lia|]); constructor]). constructor.
  - intros t e H. repeat (apply elem_of_cons in H as [[= -> ->]|H]; [lia|]). by apply elem_of_nil in H.
  - intros k. rewrite Hc. intros Hk. assert (k = 0%nat) as -> by lia. exists (Publish (at_min m) (at_min m) (at_min m)), m.
    rewrite Z.mul_0_r, Z.add_0_r. split; [|done]. right. right. left.
  - intros i j t e e' a b Hi Hj He He'.
    destruct i as [|[|[|[|i]]]]; cbn in Hi; try (injection Hi as <- <-; discriminate He); [|discriminate Hi].
    destruct j as [|[|[|[|j]]]]; cbn in Hj; try (injection Hj as Hj1 <-; discriminate He'); [done|discriminate Hj].
  - intros t e a H He. exists 0%nat. rewrite Hc.
    repeat (apply elem_of_cons in H as [[= -> ->]|H]; [first [discriminate He|lia]|]). by apply elem_of_nil in H.
  - intros t e a H He.
    repeat (apply elem_of_cons in H as [[= -> ->]|H]; [first [discriminate He|injection He as <-; cbn [n_minute at_min]; unfold minute_no]|]);
      [|by apply elem_of_nil in H].
    rewrite (Z.mul_comm 60000), Z.div_add_l by lia. change (40307 / 60000) with 0. rewrite Z.add_0_r. rewrite Z.mod_small; lia.
Qed.

(** The time to call StartLogger for this: 5.3 s into the minute before. *)
Definition t_start (m : nat) : Z := 60000 * (Z.of_nat m - 1) + 5300.
Lemma t_start_logger m : logger_start (t_start m) = 60000 * Z.of_nat m + 300 /\ first_minute (t_start m) = Z.of_nat m.
Proof.
  unfold t_start, logger_start, first_minute, second_of, minute_no, after_sleep.
  assert ((60000 * (Z.of_nat m - 1) + 5300) / 1000 = 60 * (Z.of_nat m - 1) + 5) as -> by (Z.to_euclidean_division_equations; lia).
  assert ((60 * (Z.of_nat m - 1) + 5) mod 60 = 5) as -> by (Z.to_euclidean_division_equations; lia).
  assert ((60000 * (Z.of_nat m - 1) + 5300) mod 60000 = 5300) as -> by (Z.to_euclidean_division_equations; lia). cbn [Z.eqb].
  split; [lia|]. change (5300 <? 1000) with false. cbv iota. Z.to_euclidean_division_equations. lia.
Qed.

Lemma one_period_facts m : (m < 60)%nat -> let now := 60000 * (Z.of_nat m + 1) + 20 in
  delays (λ _, 5) /\ delays (λ _, 7) /\
  (forall k, first_minute (t_start m) + Z.of_nat k <= minute_no now -> total (λ _, 5) k + 7 <= 18000) /\
  timed logger_ending (close_time (logger_start (t_start m)) 60 (λ _, 5) (λ _, 7)) now (one_period m) /\
  first_minute (t_start m) < minute_no now /\ minute_of now = (Z.of_nat m + 1) mod 60.
Proof.
  intros Hm now. destruct (t_start_logger m) as [-> ->]. unfold now, minute_of, minute_no.
  assert ((60000 * (Z.of_nat m + 1) + 20) / 60000 = Z.of_nat m + 1) as -> by (Z.to_euclidean_division_equations; lia).
  split_and!; [intros k; lia|intros k; lia| |by apply one_period_timed|lia|done].
  intros k Hk. assert (k = 0 \/ k = 1)%nat as [-> | ->] by lia; vm_compute; discriminate.
Qed.

Lemma ex_7 : exists s o, lives toy_logger all_up (logger_init 0 0) (map snd (one_period 7)) s o.
Proof. eexists _, _. apply lrun_lives. vm_compute. reflexivity. Qed.

Lemma ex_59 : exists s o, lives toy_logger all_up (logger_init 0 0) (map snd (one_period 59)) s o /\
  snd (request_sth s 0) = Answer zero_obj.
Proof. eexists _, _. split; [apply lrun_lives; vm_compute; reflexivity|]. vm_compute. reflexivity. Qed.

Lemma full_hour_refuted : exists (P : prims) (c : lconf P) up k0 t late late' l now s o,
  delays late /\ delays late' /\
  (forall k, first_minute t + Z.of_nat k <= minute_no now -> total late k + late' k <= 18000) /\
  timed logger_ending (close_time (logger_start t) 60 late late') now l /\
  lives c up (logger_init 0 k0) (map snd l) s o /\
  first_minute t < minute_no now /\ snd (request_sth s (Z.to_nat (minute_of now))) = Answer zero_obj.
Proof.
  destruct ex_59 as (s & o & H1 & H2). destruct (one_period_facts 59 ltac:(lia)) as (A & B & C & D & E & F).
  exists toy, toy_logger, all_up, 0, (t_start 59), (λ _, 5), (λ _, 7), (one_period 59), (60000 * (Z.of_nat 59 + 1) + 20), s, o.
  split_and!; [done|done|done|done|done|done|]. rewrite F. exact H2.
Qed.

(** A CA: StartCA is called 5.3 s into the minute before [m]. *)
Definition ca_period (m : nat) : list (Z * caevent) :=
  let t := 60000 * Z.of_nat m in [(t + 1400, CIssue [toy_draw 1 "a"]); (t + 41307, CPeriod [] m)].

Lemma t_start_ca m : ca_start (t_start m) = 60000 * Z.of_nat m + 1300.
Proof.
  unfold t_start, ca_start, second_of, after_sleep.
  assert ((60000 * (Z.of_nat m - 1) + 5300) / 1000 = 60 * (Z.of_nat m - 1) + 5) as -> by (Z.to_euclidean_division_equations; lia).
  assert ((60 * (Z.of_nat m - 1) + 5) mod 60 = 5) as -> by (Z.to_euclidean_division_equations; lia). cbn [Z.eqb]. lia.
Qed.

Lemma ca_period_timed m : (m < 60)%nat ->
  timed ca_ending (close_time (ca_start (t_start m)) 60 (λ _, 5) (λ _, 7)) (60000 * (Z.of_nat m + 1) + 20) (ca_period m).
Proof.
  intros Hm. rewrite t_start_ca.
  assert (Hc : forall k, close_time (60000 * Z.of_nat m + 1300) 60 (λ _, 5) (λ _, 7) k = 60000 * Z.of_nat m + 41307 + 60005 * Z.of_nat k).
  { intros k. unfold close_time. rewrite run_time_eq by lia.
    assert (total (λ _, 5) k = 5 * Z.of_nat k) as ->; [|lia]. induction k as [|k IH]; [done|]. rewrite total_S, IH. lia. }
  unfold ca_period. split.
  - cbn [map fst]. repeat (constructor; [|repeat (constructor; [lia|]); constructor]). constructor.
  - intros t e H. repeat (apply elem_of_cons in H as [[= -> ->]|H]; [lia|]). by apply elem_of_nil in H.
  - intros k. rewrite Hc. intros Hk. assert (k = 0%nat) as -> by lia. exists (CPeriod [] m), m.
    rewrite Z.mul_0_r, Z.add_0_r. split; [|done]. right. left.
  - intros i j t e e' a b Hi Hj He He'.
    destruct i as [|[|i]]; cbn in Hi; try (injection Hi as <- <-; discriminate He); [|discriminate Hi].
    destruct j as [|[|j]]; cbn in Hj; try (injection Hj as Hj1 <-; discriminate He'); [done|discriminate Hj].
  - intros t e a H He. exists 0%nat. rewrite Hc.
    repeat (apply elem_of_cons in H as [[= -> ->]|H]; [first [discriminate He|lia]|]). by apply elem_of_nil in H.
  - intros t e a H He.
    repeat (apply elem_of_cons in H as [[= -> ->]|H]; [first [discriminate He|injection He as <-; unfold minute_no]|]);
      [|by apply elem_of_nil in H].
    rewrite (Z.mul_comm 60000), Z.div_add_l by lia. change (41307 / 60000) with 0. rewrite Z.add_0_r. rewrite Z.mod_small; lia.
Qed.

Lemma ca_full_hour_refuted : exists (P : prims) x z (c : caconf P) cc k0 d1 d2 t late late' l now,
  gzip_ok z /\ delays late /\ delays late' /\
  (forall k, first_minute t + Z.of_nat k <= minute_no now -> total late k + late' k <= 18000) /\
  timed ca_ending (close_time (ca_start t) 60 late late') now l /\ indexes_ok (map snd l) /\
  first_minute t < minute_no now /\
  snd (request_rev (ca_run x z c cc (ca_init x c 0 k0 d1 d2) (map snd l)) (Z.to_nat (minute_of now))) = Answer zero_obj.
Proof.
  destruct (one_period_facts 59 ltac:(lia)) as (A & B & C & D & E & F).
  exists toy, toy_x, toy_z, toy_ca, (toy_cc "localhost:9000" 0), 0, (toy_draw 1 "a"), (toy_draw 2 "b"), (t_start 59), (λ _, 5), (λ _, 7), (ca_period 59),
    (60000 * (Z.of_nat 59 + 1) + 20).
  split_and!; [intros b; reflexivity|done|done|done|apply ca_period_timed; lia| |done|].
  - split; [intros i H; cbn in H; repeat (apply elem_of_cons in H as [?|H]; [discriminate|]); by apply elem_of_nil in H|].
    intros p m H i Hi. cbn in H. repeat (apply elem_of_cons in H as [H1|H]; [try discriminate|]); [|by apply elem_of_nil in H].
    injection H1 as -> ->. by apply elem_of_nil in Hi.
  - rewrite F. apply no_revocation_at_full_hour.
Qed.
