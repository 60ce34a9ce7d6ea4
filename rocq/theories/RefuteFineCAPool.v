(** Histories in which two proofs for one certificate arrive at once. *)
From Verif Require Import Bytes Hex Base64 Json Types Crypto Verify Merkle Cert CertPool CTngExt Clock Bitset Revocation CA FineCA
  SpecCodec SpecCert SpecCA SpecFineCA SpecFineKept RefuteCA RefuteFineCA Toy.
Open Scope string_scope.

(** A certificate, the heads of two loggers, and their proofs. *)
Definition issued : list cfev :=
  ([FTick [toy_draw 7 "pub1"]] ++ repeat (FRun 0 7 []) 6 ++ [FHead (toy_sth "localhost:9100" "k1"); FHead (toy_sth "localhost:9101" "k2");
    FProof (toy_poi "localhost:9100"); FProof (toy_poi "localhost:9101")])%list.
(** The handlers one after the other, and at once. *)
Definition in_turn : list cfev := (issued ++ repeat (FRun 1 7 []) 6)%list.
Definition at_once : list cfev := (issued ++ [FRun 1 7 []; FRun 2 7 []; FRun 1 7 []; FRun 2 7 []; FRun 1 7 []; FRun 1 7 []])%list.
Notation toy_fine := (cfrun toy_x toy_z toy_ca (toy_cc "localhost:9000" 0)).
Notation infos_of y := (map (λ f, map (λ i, g_signer (li_sth i)) (x_infos (parse_ctng f))) (get_certs (a_pool (fc_st y)))).

Lemma proofs_shown : infos_of (fst (toy_fine toy_fc0 in_turn)) = [["localhost:9100"; "localhost:9101"]] /\ infos_of (fst (toy_fine toy_fc0 at_once)) = [["localhost:9101"]].
Proof. split; vm_compute; reflexivity. Qed.

Definition small (y : fca) : bool :=
  forallb (λ crt, forallb (λ e, N.ltb (N.of_nat (String.length (e_value e))) 2147483648) (c_exts crt))
    (get_certs (a_pool (fc_st y)) ++ concat (map (λ a, match a with PWrite _ crt => [crt] | _ => [] end) (fc_go y))).
Lemma small_ok y crt (e : ext) : small y = true -> crt ∈ get_certs (a_pool (fc_st y)) \/ (exists k, PWrite k crt ∈ fc_go y) -> e ∈ c_exts crt -> (N.of_nat (String.length (e_value e)) < 2147483648)%N.
Proof.
  unfold small. rewrite forallb_forall. intros H Hc He.
  assert (K : crt ∈ (get_certs (a_pool (fc_st y)) ++ concat (map (λ a, match a with PWrite _ crt => [crt] | _ => [] end) (fc_go y)))%list).
  { apply elem_of_app. destruct Hc as [Hc|[k Hc]]; [by left|right]. apply elem_of_list_In, in_concat. exists [crt]. split; [|by left].
    apply in_map_iff. exists (PWrite k crt). split; [done|]. by apply elem_of_list_In. }
  specialize (H crt (proj1 (elem_of_list_In _ _) K)). rewrite forallb_forall in H. specialize (H e (proj1 (elem_of_list_In _ _) He)). by apply N.ltb_lt.
Qed.
Lemma at_once_sizes : fine_sizes toy_x toy_z toy_ca (toy_cc "localhost:9000" 0) toy_fc0 at_once.
Proof.
  split.
  - intros l1 l2 crt e E. apply small_ok.
    assert (K : forallb (λ n, small (fst (toy_fine toy_fc0 (take n at_once)))) (seq 0 18) = true) by (vm_compute; reflexivity).
    assert (El : l1 = take (length l1) at_once) by (rewrite E; by rewrite take_app). assert (Hl : length l1 < 18).
    { assert (length at_once = 17) by reflexivity. rewrite E, app_length in H. lia. }
    rewrite forallb_forall in K. rewrite El. apply K, in_seq. lia.
  - intros q pf Hq Hp. unfold at_once, issued in Hq. cbn [app repeat] in Hq. repeat (apply elem_of_cons in Hq as [Hq|Hq]; [try discriminate Hq|]); try (by apply elem_of_nil in Hq);
      injection Hq as ->; by injection Hp as <-.
Qed.

Lemma in_turn_sizes : fine_sizes toy_x toy_z toy_ca (toy_cc "localhost:9000" 0) toy_fc0 in_turn.
Proof.
  split.
  - intros l1 l2 crt e E. apply small_ok.
    assert (K : forallb (λ n, small (fst (toy_fine toy_fc0 (take n in_turn)))) (seq 0 18) = true) by (vm_compute; reflexivity).
    assert (El : l1 = take (length l1) in_turn) by (rewrite E; by rewrite take_app). assert (Hl : length l1 < 18).
    { assert (length in_turn = 17) by reflexivity. rewrite E, app_length in H. lia. }
    rewrite forallb_forall in K. rewrite El. apply K, in_seq. lia.
  - intros q pf Hq Hp. unfold in_turn, issued in Hq. cbn [app repeat] in Hq. repeat (apply elem_of_cons in Hq as [Hq|Hq]; [try discriminate Hq|]); try (by apply elem_of_nil in Hq);
      injection Hq as ->; by injection Hp as <-.
Qed.

(** The first proof has been filed, and the second is handled. *)
Definition first_filed : list cfev := (issued ++ repeat (FRun 1 7 []) 3)%list.
Definition second_handled : list cfev := repeat (FRun 1 7 []) 3.
Lemma kept_shown : exists i, let y := fst (toy_fine toy_fc0 first_filed) in let k := poi_ski (toy_poi "localhost:9100") in
  fine_sizes toy_x toy_z toy_ca (toy_cc "localhost:9000" 0) toy_fc0 (first_filed ++ second_handled) /\ entered y k i /\
  (forall crt, PWrite k crt ∈ fc_go y -> i ∈ x_infos (parse_ctng crt)) /\ no_clear toy_x toy_z toy_ca (toy_cc "localhost:9000" 0) y second_handled.
Proof.
  destruct (get_by_ski (a_pool (fc_st (fst (toy_fine toy_fc0 first_filed)))) (poi_ski (toy_poi "localhost:9100"))) as [crt|] eqn:E; [|by vm_compute in E].
  destruct (x_infos (parse_ctng crt)) as [|i r] eqn:I.
  { assert (K : match get_by_ski (a_pool (fc_st (fst (toy_fine toy_fc0 first_filed)))) (poi_ski (toy_poi "localhost:9100")) with Some d => length (x_infos (parse_ctng d)) | None => 0 end = 1) by (vm_compute; reflexivity).
    rewrite E, I in K. done. }
  exists i. split_and!.
  - exact in_turn_sizes.
  - exists crt. split; [done|]. rewrite I. by left.
  - intros d Hd. assert (K : forallb (λ a, match a with PWrite _ _ => false | _ => true end) (fc_go (fst (toy_fine toy_fc0 first_filed))) = true) by (vm_compute; reflexivity).
    rewrite forallb_forall in K. by specialize (K _ (proj1 (elem_of_list_In _ _) Hd)).
  - intros l1 n m ps l2 El Hl.
    assert (K : forallb (λ n, forallb (λ a, match a with AClear => false | _ => true end) (fc_go (fst (toy_fine (fst (toy_fine toy_fc0 first_filed)) (take n second_handled))))) (seq 0 4) = true) by (vm_compute; reflexivity).
    assert (E1 : l1 = take (length l1) second_handled) by (rewrite El; by rewrite take_app). assert (H1 : length l1 < 4).
    { assert (length second_handled = 3) by reflexivity. rewrite El, app_length in H. cbn [length] in H. lia. }
    rewrite forallb_forall in K. assert (H0 : In (length l1) (seq 0 4)) by (apply in_seq; lia). specialize (K _ H0). rewrite <- E1, forallb_forall in K.
    apply elem_of_list_lookup_2, elem_of_list_In in Hl. by specialize (K _ Hl).
Qed.

Lemma filed_shown : let y := fst (toy_fine toy_fc0 issued) in fine_sizes toy_x toy_z toy_ca (toy_cc "localhost:9000" 0) toy_fc0 (issued ++ [FRun 1 7 []; FRun 1 7 []; FRun 1 7 []]) /\
  fc_go y !! 1 = Some (PHead (toy_poi "localhost:9100")) /\
  exists crt, get_by_ski (a_pool (fc_st y)) (poi_ski (toy_poi "localhost:9100")) = Some crt /\ x_infos (parse_ctng crt) = [].
Proof.
  split_and!.
  - destruct in_turn_sizes as [H1 H2]. split.
    + intros l1 l2 crt e E. apply (H1 l1 (l2 ++ second_handled)%list). rewrite app_assoc, <- E. reflexivity.
    + intros q pf Hq. apply H2. change in_turn with ((issued ++ [FRun 1 7 []; FRun 1 7 []; FRun 1 7 []]) ++ second_handled)%list. apply elem_of_app. by left.
  - vm_compute. reflexivity.
  - destruct (get_by_ski (a_pool (fc_st (fst (toy_fine toy_fc0 issued)))) (poi_ski (toy_poi "localhost:9100"))) as [crt|] eqn:E; [|by vm_compute in E]. exists crt. split; [done|].
    assert (K : match get_by_ski (a_pool (fc_st (fst (toy_fine toy_fc0 issued)))) (poi_ski (toy_poi "localhost:9100")) with Some d => length (x_infos (parse_ctng d)) | None => 1 end = 0) by (vm_compute; reflexivity).
    rewrite E in K. by destruct (x_infos (parse_ctng crt)).
Qed.
