(** A certificate of the small system from the CA to a client: the hypotheses of the theorem hold in a run. *)
From Verif Require Import Bytes Hex Json Types Crypto Verify Bitset Cert CertPool CTngExt Revocation Clock Prog Gossiper Network Overlap System SpecVerify SpecCert SpecGossiper SpecCodec SpecLogger SpecCA SpecNetwork SpecOverlap SpecSystem SpecSystemDetect SpecSystemDeliver SpecSystemAccept SystemIssue SystemAccept.
From Verif Require Logger CA Monitor Client SpecClient.
From Verif Require Import ToyFacts RefuteNetwork RefuteSystem RefuteSystemDetect RefuteSystemDeliver RefuteSystemIssue RefuteLogger RefuteCA RefuteClient Toy.
Open Scope string_scope.

Definition publish11 : wevent := EPublish lg (at_min 11) (at_min 11) (at_min 11).
Definition afterwards : list wevent := Eval vm_compute in drop 6 deliver_world.
Lemma deliver_split : deliver_world = (until_publish ++ publish11 :: [EDeliver 0 11] ++ EDeliver 0 11 :: afterwards)%list.
Proof. reflexivity. Qed.

Lemma toy_good : good_period toy_z toy_x toy_sys 2 "12" two_said (start "12") deliver_world.
Proof.
  destruct deliver_hypotheses as (H1 & H2 & H3 & H4 & H5 & H6 & H7 & H8 & H9 & _).
  split; [exact H1|exact H2|exact H3|left; exact (le_n 2)|exact H4|exact H5|exact H6|exact H7|exact H8|exact H9].
Qed.

Lemma toy_ready : ready toy_z toy_x toy_sys "12" two_said (start "12") deliver_world "m2" (sys_mon "m2" "km2") "c1" (sys_cc "c1" "" 0) cl0.
Proof.
  destruct deliver_hypotheses as (_ & _ & _ & _ & _ & _ & _ & _ & _ & _ & _ & H1 & H2 & H3 & H4 & H5).
  split; [|by eexists|exact H1|intros m Hm; by destruct (H3 "m2" m)|reflexivity|exact H4|exact H2|by split_and!|exact H5].
  eexists "g2", _. split; reflexivity.
Qed.

(** The two certificates the CA can sign then. *)
Definition fine (f : cert) : bool :=
  forallb (λ i, bool_decide (verify (sys_cc "c1" "" 0) (li_sth i) <> Panics)) (SpecClient.relied_on f) &&
  negb (N.testbit (bs_bits (snd (srh_and_dcrv toy_z small_rev))) (to_uint (cert_rid f))).
Lemma fine_sound f : fine f = true -> (forall i, i ∈ SpecClient.relied_on f -> verify (sys_cc "c1" "" 0) (li_sth i) <> Panics) /\
  ~ SpecClient.revoked_in (snd (srh_and_dcrv toy_z small_rev)) f.
Proof.
  unfold fine. intros [H1 H2]%andb_true_iff. split.
  - intros i Hi. rewrite forallb_forall in H1. apply elem_of_list_In, H1, bool_decide_eq_true in Hi. exact Hi.
  - intros [_ H]. rewrite H in H2. discriminate.
Qed.
Lemma finals_b : match w_cas (wrun toy_z toy_x toy_sys after_publish [EDeliver 0 11; EDeliver 0 11]) !! ca with
  | Some s => forallb fine (CA.sign_all toy_x toy_caconf s) | None => false end = true.
Proof. vm_compute. reflexivity. Qed.
Lemma all_of {A} (f : A -> bool) l a : forallb f l = true -> a ∈ l -> f a = true.
Proof. rewrite forallb_forall. intros H Ha. by apply H, elem_of_list_In. Qed.
Lemma finals_fine s f : w_cas (wrun toy_z toy_x toy_sys after_publish [EDeliver 0 11; EDeliver 0 11]) !! ca = Some s -> f ∈ CA.sign_all toy_x toy_caconf s -> fine f = true.
Proof.
  generalize finals_b. generalize (w_cas (wrun toy_z toy_x toy_sys after_publish [EDeliver 0 11; EDeliver 0 11]) !! ca).
  intros o H -> Hf. exact (all_of fine _ f H Hf).
Qed.
Lemma head_is : w_mail after_publish !! 0 = Some (System.Head ca good_head).
Proof. vm_compute. reflexivity. Qed.
Lemma first_head (W : world) u g g' r : w_mail W = System.Head u g :: r -> w_mail W !! 0 = Some (System.Head u g') -> g = g'.
Proof. intros ->. cbn. congruence. Qed.

Lemma accept_applies : exists s' final sc', w_cas (wrun toy_z toy_x toy_sys after_publish [EDeliver 0 11; EDeliver 0 11]) !! ca = Some s' /\
  final ∈ CA.sign_all toy_x toy_caconf s' /\ same_subject final first_cert /\
  w_clients (sys_run (start "12") (deliver_world ++ period_end_and_load "m2" 12 "c1" "Period_12" true)) !! "c1" = Some sc' /\
  Client.check_certificate (sys_cc "c1" "" 0) sc' final = Accept.
Proof.
  destruct issue_start as (C1 & C2 & C3 & C4 & C5 & C6 & C7 & C8 & C9 & C10 & C11 & C12 & C13 & C14).
  destruct issue_arrivals as (A1 & (sb & A2 & A3) & (sl & d & A4 & A5 & A6 & A7 & A8) & A9).
  destruct issue_delivered as (g & p & p' & D1 & D2 & D3 & sc & crt1 & D4 & D5 & D6 & D7).
  assert (lg <> "") as Cn by discriminate.
  assert (ca ∈ [ca]) as Cb by (by left).
  destruct (SystemAccept.issued_accepted toy_z toy_x toy_sys 2 "12" "s" "t" (λ _, (0, 0)%Z) (λ _, (0%Z, 0%Z, toy_draw 1 "a", toy_draw 2 "b")) two_said ca toy_caconf (sys_cc ca "k3" 0) lg
    (Logger.mklconf (P:=toy) lg [ca] "k1") "k1" toy_agg toy_perm toy_deser C1 C2 C3 C4 Cb eq_refl C5 Cn C6 C7 C8 C9 C10 [] two_draws ca_start first_cert C11 C12 C13)
    with (l1 := @nil wevent) (i := 0) (m := 11) (l2 := [EDeliver 0 11]) (t := at_min 11) (t1 := at_min 11) (t2 := at_min 11) (sl := sl) as (g0 & p0 & Hg & Hp & _ & Hk & K).
  - intros y Hy. rewrite C14 in Hy. exact (none_in _ _ Hy).
  - exact A1.
  - intros s y Hs Hy. rewrite <- (some_same _ _ _ A2 Hs), A3 in Hy. exact (none_in _ _ Hy).
  - intros E%elem_of_list_singleton. discriminate.
  - exact A4.
  - rewrite A5. cbn. lia.
  - rewrite A5. exact (two_unique (tbs_certificate first_cert) d A6).
  - rewrite A5. intros y Hy _. exact (one_issuer (tbs_certificate first_cert) d _ _ _ A8 A7 A9 Hy).
  - change (System.Head ca g0 ∈ w_mail after_publish) in Hg. change (Proof_ ca p0 ∈ w_mail after_publish) in Hp. rewrite D1 in Hg, Hp.
    apply pick_head in Hg. subst g0. apply (pick_proof _ _ _ _ _ _ _ Hk D3) in Hp. subst p0.
    pose proof (first_head _ _ _ _ _ D1 head_is) as ->.
    destruct (K [] 0 11 [] 0 11) as (s' & final & E1 & E2 & E3 & E4 & F); clear K.
    + intros rs m'. apply no_period.
    + change (w_mail after_publish !! 0 = Some (System.Head ca good_head)). exact head_is.
    + change (w_mail (wstep toy_z toy_x toy_sys after_publish (EDeliver 0 11)) !! 0 = Some (Proof_ ca p)). rewrite (after_head _ _ _ _ D1). reflexivity.
    + intros ds' Hx. exact (none_in _ _ Hx).
    + intros g' Hx. destruct (nothing_arrives _ _ Hx).
    + intros s y Hs Hy. change (w_cas (wrun toy_z toy_x toy_sys after_publish [EDeliver 0 11]) !! ca = Some s) in Hs.
      rewrite <- (some_same _ _ _ D4 Hs) in Hy. rewrite <- (some_same _ _ _ D5 Hy), D6. split; [intros j Hj; exact (none_in _ _ Hj)|exact D7].
    + change (w_cas (wrun toy_z toy_x toy_sys after_publish [EDeliver 0 11; EDeliver 0 11]) !! ca = Some s') in E1.
      destruct (fine_sound _ (finals_fine s' final E1 E2)) as [F1 F2].
      destruct deliver_hypotheses as (_ & _ & _ & _ & _ & _ & _ & _ & _ & Har & Hah & _).
      assert (is_Some (sy_gossipers toy_sys !! "g2")) as G2 by (eexists; reflexivity).
      assert (is_Some (sy_gossipers toy_sys !! "g1")) as G1 by (eexists; reflexivity).
      assert (known_unrevoked toy_z toy_x toy_sys (start "12") deliver_world cl0 ca final) as Hun.
      { eexists. split; [exact F2|]. right. split; [reflexivity|]. exists "g1", small_rev. split; [exact Har|]. split; [exact G1|]. split; [reflexivity|]. split; reflexivity. }
      specialize (F afterwards). 
      destruct (F toy_good (ex_intro _ "g2" (conj Hah G2)) "m2" (sys_mon "m2" "km2") "c1" (sys_cc "c1" "" 0) cl0 12 true toy_ready eq_refl eq_refl C5) as (sc' & S1 & S2).
      * intros H. vm_compute in H. decompose [ex or and] H; discriminate.
      * exact F1.
      * exact Hun.
      * exists s', final, sc'. split; [exact E1|]. split; [exact E2|]. split; [exact E3|]. split; [exact S1|exact S2].
Qed.
