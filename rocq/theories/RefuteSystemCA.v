(** Runs about a normal CA: a good one, and one around the hour. *)
From Verif Require Import Bytes Hex Json Types Crypto Verify Bitset Cert CertPool CTngExt Revocation Prog Gossiper Network Overlap System SpecGossiper SpecCodec SpecCA SpecSystem SpecSystemCA CodecFacts BitsetFacts RevocationFacts CAFacts Clock Toy RefuteGossiper GossiperSeq NetworkNode RefuteNetwork RefuteOverlap RefuteSystem.
From Verif Require Logger CA Monitor Client.
From Verif Require Import RefuteLogger RefuteCA.
From Coq Require Import Lia.
Open Scope string_scope.

Notation toy_conf := (CA.mkcaconf (P:=toy) ca [lg] ca "k3" "pk").

(** Minute 11: the CA ends a period; minute 12: a monitor asks it and gets the answer. *)
Definition asked : list wevent := [ECaPeriod ca [3%N; 5%N] 11; EMonitor "m1" (Monitor.MQueryCAs 12); EDeliver 0 12; EDeliver 0 12].

(** Minute 59: the CA ends a period; minute 0: the monitors ask it, and their timers fire. *)
Definition hour1 : list wevent := Eval vm_compute in
  settled 0 (start "00") [ECaPeriod ca [] 59; EMonitor "m1" (Monitor.MQueryCAs 0); EMonitor "m2" (Monitor.MQueryCAs 0)].
Definition hour2 : list wevent := Eval vm_compute in
  settled 0 (start "00") (hour1 ++ [EMonitor "m1" (Monitor.MFire 0 0 "t"); EMonitor "m2" (Monitor.MFire 0 0 "t")])%list.

Definition ca_timely_b (next : nat -> nat) (e : string) (W : world) (past : list wevent) (ev : wevent) : bool :=
  match ev with
  | EDeliver i m =>
      match w_mail W !! i with
      | Some (Query _ _ url) => negb (String.eqb url e) || existsb (λ n, Nat.eqb m (next n)) (period_ends e past)
      | _ => true
      end
  | ELose _ => false
  | _ => true
  end.

Lemma period_ends_in e l n : n ∈ period_ends e l -> exists rs, ECaPeriod e rs n ∈ l.
Proof.
  unfold period_ends. rewrite elem_of_list_omap. intros (ev & H & E). destruct ev as [| | | | | | | | | |u rs m| |]; try done. destruct (String.eqb u e) eqn:X; [|done].
  apply String.eqb_eq in X as ->. injection E as ->. eauto.
Qed.
Lemma in_period_ends e l rs n : ECaPeriod e rs n ∈ l -> n ∈ period_ends e l.
Proof. intros H. unfold period_ends. rewrite elem_of_list_omap. exists (ECaPeriod e rs n). split; [done|]. cbn. by rewrite String.eqb_refl. Qed.

Lemma ca_timely_sound next e W l : along (ca_timely_b next e) W [] l = true -> ca_timely toy_z toy_x toy_sys W next e l.
Proof.
  intros H. split.
  - intros l1 i m l2 mon f -> E. apply along_at in H. cbn [ca_timely_b] in H. rewrite E in H.
    rewrite String.eqb_refl in H. cbn [negb orb] in H. apply existsb_exists in H as (n & Hn & Q). apply Nat.eqb_eq in Q as ->.
    apply elem_of_list_In in Hn. apply period_ends_in in Hn as (rs & Hn). exists rs, n. split; [|done].
    rewrite app_nil_r in Hn. apply elem_of_list_In. apply in_rev. by apply elem_of_list_In.
  - intros l1 i l2 y -> E. apply along_at in H. discriminate H.
Qed.

(** Every answer comes after one period at most, to a monitor that has recorded nothing. *)
Definition first_b (e : string) (W : world) (past : list wevent) (ev : wevent) : bool :=
  match ev with
  | EDeliver i m =>
      match w_mail W !! i with
      | Some (Response mon _ _ _) =>
          match w_mons W !! mon with Some s => bool_decide (Monitor.m_crv s !! e = None) | None => true end && Nat.leb (length (period_ends e past)) 1
      | _ => true
      end
  | _ => true
  end.
Lemma first_sound e W l : along (first_b e) W [] l = true -> records_right toy_z toy_x toy_sys W e l.
Proof.
  intros H l1 i n l2 mon g c u s la rs m lb sa -> E Ec Es E1 _ _. apply along_at in H. cbn [first_b] in H. rewrite E, Es in H.
  apply andb_true_iff in H as [H1 H2]. apply bool_decide_eq_true in H1. right. split; [done|]. intros rs' m' Hin.
  apply Nat.leb_le in H2. rewrite app_nil_r in H2. rewrite E1 in H2.
  rewrite rev_app_distr in H2. cbn [rev] in H2. unfold period_ends in H2. rewrite !omap_app, !app_length in H2. cbn [omap list_omap] in H2.
  rewrite String.eqb_refl in H2. cbn [length] in H2. fold (period_ends e (rev la)) in H2.
  assert (m' ∈ period_ends e (rev la)) as X.
  { apply (in_period_ends e _ rs'). apply elem_of_list_In. rewrite <- in_rev. by apply elem_of_list_In. }
  destruct (period_ends e (rev la)); [by apply elem_of_nil in X|]. cbn [length] in H2. lia.
Qed.

Lemma no_outsider_quiet e l : forallb no_outsider l = true -> outsiders_quiet e l.
Proof.
  rewrite forallb_forall. intros H. split.
  - intros y Hy%elem_of_list_In%H. discriminate.
  - intros u path g Hy%elem_of_list_In%H. discriminate.
Qed.

Definition index_b (ev : wevent) : bool :=
  match ev with ERevoke _ _ => false | ECaPeriod _ rs _ => forallb (λ i, N.ltb i 1000) rs | _ => true end.
Lemma index_sound e l : forallb index_b l = true -> revokes_ok e l.
Proof.
  rewrite forallb_forall. intros H. split.
  - intros i Hi%elem_of_list_In%H. discriminate.
  - intros rs m Hi%elem_of_list_In%H. cbn [index_b] in Hi. rewrite forallb_forall in Hi. intros i Hin%elem_of_list_In%Hi.
    apply N.ltb_lt in Hin. unfold index_ok. lia.
Qed.

Lemma asked_run : forallb no_outsider asked && along (ca_timely_b Datatypes.S ca) (start "12") [] asked && along (first_b ca) (start "12") [] asked &&
  bool_decide (NoDup (period_ends ca asked)) && forallb index_b asked = true.
Proof. vm_compute. reflexivity. Qed.
Lemma hour_run : forallb no_outsider hour2 && along (ca_timely_b (λ n, Nat.modulo (Datatypes.S n) 60) ca) (start "00") [] hour2 && along (first_b ca) (start "00") [] hour2 &&
  bool_decide (NoDup (period_ends ca hour2)) && forallb index_b hour2 && black_in ca (sys_run (start "00") hour2) = true.
Proof. vm_compute. reflexivity. Qed.

Lemma toy_ca_identity : ca_identity toy_sys ca toy_conf.
Proof.
  split_and!; try done.
  - eexists. reflexivity.
  - intros u c' H. cbn [toy_sys sy_loggers] in H. apply lookup_singleton_Some in H as [<- <-]. discriminate.
  - intros u c' cc H. cbn [toy_sys sy_cas] in H. apply lookup_singleton_Some in H as [<- H]. done.
  - intros mon c' u H. cbn [toy_sys sy_monitors] in H.
    assert (exists k1 k2, c' = sys_mon k1 k2) as (k1 & k2 & ->).
    { apply lookup_insert_Some in H as [[_ H]|[_ H]]; [injection H as <- _; eauto|]. apply lookup_singleton_Some in H as [_ H]. injection H as <- _; eauto. }
    split; [cbn [sys_mon Monitor.mc_loggers]; rewrite elem_of_list_singleton; discriminate|]. split; [done|].
    exists "k3". split; [reflexivity|]. intros m. cbn. apply String.eqb_refl.
Qed.

Lemma asked_facts : outsiders_quiet ca asked /\ NoDup (period_ends ca asked) /\ revokes_ok ca asked /\ ca_timely toy_z toy_x toy_sys (start "12") Datatypes.S ca asked /\
  records_right toy_z toy_x toy_sys (start "12") ca asked.
Proof.
  pose proof asked_run as H. apply andb_true_iff in H as [[[[H1 H2]%andb_true_iff H3]%andb_true_iff H4]%andb_true_iff H5].
  exact (conj (no_outsider_quiet _ _ H1) (conj (bool_decide_eq_true_1 _ H4) (conj (index_sound _ _ H5) (conj (ca_timely_sound _ _ _ _ H2) (first_sound _ _ _ H3))))).
Qed.

Lemma hour_convicted : exists (S : sysconf toy) lt ct e c l,
  let W0 := world_init toy_x S "00" "s" "t" lt ct in
  ca_identity S e c /\ (ct e).1.1.1 = 0%Z /\ outsiders_quiet e l /\ NoDup (period_ends e l) /\ revokes_ok e l /\
  ca_timely toy_z toy_x S W0 (λ n, Nat.modulo (Datatypes.S n) 60) e l /\ records_right toy_z toy_x S W0 e l /\
  size (sy_gossipers S) = 2 /\
  forall u y, on_nodes (w_net (wrun toy_z toy_x S W0 l)) !! u = Some y -> e ∈ t_black (p_st y).
Proof.
  exists toy_sys, (λ _, (0, 0)%Z), (λ _, (0%Z, 0%Z, toy_draw 1 "a", toy_draw 2 "b")), ca, toy_conf, hour2.
  pose proof hour_run as H. apply andb_true_iff in H as [[[[[H1 H2]%andb_true_iff H3]%andb_true_iff H4]%andb_true_iff H5]%andb_true_iff H6].
  exact (conj toy_ca_identity (conj eq_refl (conj (no_outsider_quiet _ _ H1) (conj (bool_decide_eq_true_1 _ H4) (conj (index_sound _ _ H5) (conj (ca_timely_sound _ _ _ _ H2)
    (conj (first_sound _ _ _ H3) (conj eq_refl (black_in_sound _ _ H6))))))))).
Qed.

(** A monitor that did not get the first object of the CA: it asks for the second. *)
Definition missed : list wevent := [ECaPeriod ca [3%N; 5%N] 11; ECaPeriod ca [] 12; EMonitor "m1" (Monitor.MQueryCAs 13); EDeliver 0 13].
Definition second_vector : crv := crv_next (crv_mass_revoke crv_init [3%N; 5%N]).
Definition second_object : gobj := generate_revocation (P:=toy) toy_z "k3" ca ca second_vector 0 "13" false.
Lemma missed_run : forallb no_outsider (missed ++ [EDeliver 0 13]) && along (ca_timely_b Datatypes.S ca) (start "12") [] (missed ++ [EDeliver 0 13]) &&
  forallb index_b (missed ++ [EDeliver 0 13]) && match w_mons (sys_run (start "12") missed) !! "m1" with Some s => bool_decide (Monitor.m_crv s = ∅) | None => false end = true.
Proof. vm_compute. reflexivity. Qed.

Lemma missed_answer : w_mail (sys_run (start "12") missed) !! 0 = Some (Response "m1" Rev ca (Some second_object)).
Proof. reflexivity. Qed.
Lemma missed_made : exists sa, w_cas (sys_run (start "12") ([ECaPeriod ca [3%N; 5%N] 11] ++ [ECaPeriod ca [] 12])) !! ca = Some sa /\
  CA.a_rev sa !! unpadded 13 = Some second_object /\ v_cur (CA.a_crv sa) = v_cur second_vector.
Proof. eexists. split; [reflexivity|]. split; reflexivity. Qed.

Lemma second_differs : bs_marshal (snd (srh_and_dcrv toy_z second_object)) <> bs_marshal (v_cur second_vector).
Proof.
  assert (forall i, i ∈ [3%N; 5%N] -> index_ok i) as Hi.
  { intros i. rewrite !elem_of_cons, elem_of_nil. unfold index_ok. intros [->|[->|[]]]; lia. }
  unfold second_object. rewrite generated_decodes; [|apply toy_gzip|cbn [revocation_delta]; unfold crv_delta, second_vector, crv_next; cbn [v_pre]; apply cur_ok_ok, cur_ok_new].
  cbn [snd revocation_delta]. unfold crv_delta, second_vector, crv_next. cbn [v_pre v_cur]. destruct (mass_cur [3%N; 5%N] crv_init) as [-> _].
  unfold crv_init. cbn [v_cur]. intros E. apply bs_marshal_inj in E; [|apply cur_ok_ok, cur_ok_new|apply cur_ok_ok, cur_ok_sets; [apply cur_ok_new|done]].
  apply (f_equal (λ b, bs_test b 5)) in E. rewrite bs_test_new in E. symmetry in E.
  assert (bs_test (fold_left bs_set [3%N; 5%N] (bs_new crv_size)) 5 = true) as X; [|congruence].
  apply sets_test; [apply bs_trim_new|]. right. apply elem_of_cons. right. by left.
Qed.

(** The hypotheses under which a CA is accused. *)
Lemma missed_facts : let l := (missed ++ [EDeliver 0 13])%list in exists s sa,
  outsiders_quiet ca l /\ revokes_ok ca l /\ ca_timely toy_z toy_x toy_sys (start "12") Datatypes.S ca l /\
  w_mail (sys_run (start "12") missed) !! 0 = Some (Response "m1" Rev ca (Some second_object)) /\
  w_mons (sys_run (start "12") missed) !! "m1" = Some s /\
  missed = ([ECaPeriod ca [3%N; 5%N] 11] ++ ECaPeriod ca [] 12 :: [EMonitor "m1" (Monitor.MQueryCAs 13); EDeliver 0 13])%list /\
  w_cas (sys_run (start "12") ([ECaPeriod ca [3%N; 5%N] 11] ++ [ECaPeriod ca [] 12])) !! ca = Some sa /\
  CA.a_rev sa !! unpadded 13 = Some second_object /\
  bs_marshal (default (snd (srh_and_dcrv toy_z second_object)) (Monitor.m_crv s !! ca)) <> bs_marshal (v_cur (CA.a_crv sa)) /\
  (forall t t', h_sha256 toy t = h_sha256 toy t' -> t = t') /\
  (forall t t', rsa_check (p:=toy) "k3" t' (rsa_sign (p:=toy) "k3" t) = true -> t' = t).
Proof.
  intros l. pose proof missed_run as H. apply andb_true_iff in H as [[[H1 H2]%andb_true_iff H3]%andb_true_iff H4].
  destruct (w_mons (sys_run (start "12") missed) !! "m1") as [s|] eqn:Es; [|discriminate H4]. apply bool_decide_eq_true in H4.
  destruct missed_made as (sa & Sa & Ga & Va). exists s, sa.
  split; [exact (no_outsider_quiet _ _ H1)|]. split; [exact (index_sound _ _ H3)|]. split; [exact (ca_timely_sound _ _ _ _ H2)|].
  split; [exact missed_answer|]. split; [reflexivity|]. split; [reflexivity|]. split; [exact Sa|]. split; [exact Ga|].
  split; [rewrite H4, lookup_empty, Va; exact second_differs|]. split.
  - intros t t' E. cbn [h_sha256 toy] in E. by injection E.
  - intros t t' E. cbn [rsa_check rsa_sign toy] in E. apply String.eqb_eq, app_inj_l, app_inj_l in E. done.
Qed.
