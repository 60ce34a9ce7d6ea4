(** Counterexamples about certificate authorities. *)
From Verif Require Import Bytes Json Types Crypto Verify SpecCodec CodecFacts Merkle Cert CertPool CTngExt Clock SpecCert ExtFacts.
From Verif Require Import Bitset BitsetFacts Revocation SpecLogger LoggerFacts SpecCA RevocationFacts CA CAFacts CARidFacts CAPoiFacts Toy CryptoFacts.
Open Scope string_scope.

Definition toy_x : x509lib := mkx509 (λ s, s) (λ _, []) (λ c, c_subject c ++ c_pub c) (λ a b, a ++ b).
Definition toy_z : gzip := mkgzip (λ s, s) Some.
Definition toy_ca : caconf toy := mkcaconf (P:=toy) "localhost:9000" ["localhost:9100"; "localhost:9101"] "localhost:9000" "k3" "pk".
Definition toy_draw (n : Z) (pub : string) : draw := mkdraw n pub "".
Definition toy_ca0 (ty k : Z) : cast := ca_init toy_x toy_ca ty k (toy_draw 1 "a") (toy_draw 2 "b").
Notation toy_run := (ca_run toy_x toy_z toy_ca (toy_cc "localhost:9000" 0)).

Lemma toy_gzip : gzip_ok toy_z.
Proof. intros s. reflexivity. Qed.
Lemma toy_std : std_ok toy_x.
Proof. intros c e H. by apply elem_of_nil in H. Qed.

(** C37: the first certificate has the identifier of the CA's own certificate, whatever the library. *)
Lemma root_collides {P : prims} x z (c : caconf P) cc ty k d1 d2 d ds : std_ok x -> cac_signer c <> "Testing Dummy 1" ->
  exists f, f ∈ all_issued x z c cc (ca_init x c ty k d1 d2) [CIssue (d :: ds)] /\
    cert_rid f = cert_rid (a_root (ca_init x c ty k d1 d2)) /\ c_subject_cn f <> c_subject_cn (a_root (ca_init x c ty k d1 d2)).
Proof.
  intros Hx Hs. destruct (init_counter x c Hx ty k d1 d2) as (E & Er & _ & En). set (s0 := ca_init x c ty k d1 d2) in *.
  assert (all_issued x z c cc s0 [CIssue (d :: ds)] = generate_n x c (a_root s0) 1 0 1 (d :: ds)) as Ei.
  { cbn [all_issued ca_issued issue fst snd]. rewrite E. by rewrite app_nil_r. }
  rewrite Ei. eexists. split; [left|]. split.
  - rewrite Er. unfold cert_rid. erewrite parse_signed by done. rewrite decode_encode; [done|]. apply ext_ok_rid. unfold int64_max. lia.
  - rewrite En. intros H. apply Hs. rewrite <- H. reflexivity.
Qed.

(** C38: what is revoked after the first period end is in no delta. *)
Definition late_revocation (i : N) : list caevent := [CPeriod [] 7; CRevoke i; CPeriod [] 8].
Lemma late_missing {P : prims} x z (c : caconf P) cc ty k d1 d2 i : gzip_ok z -> index_ok i ->
  let s0 := ca_init x c ty k d1 d2 in
  revokes (v_cur (a_crv (ca_run x z c cc s0 (late_revocation i)))) i /\
  length (all_published x z c cc s0 (late_revocation i)) = 2 /\
  forall d, d ∈ deltas z (all_published x z c cc s0 (late_revocation i)) -> ~ revokes d i.
Proof.
  intros Hz Hi s0.
  assert (indexes_ok ([] ++ CPeriod [] 7 :: [CRevoke i; CPeriod [] 8])) as Hok.
  { split.
    - intros j Hj. cbn in Hj. repeat (apply elem_of_cons in Hj as [Hj|Hj]); try done; [by injection Hj as ->|by apply elem_of_nil in Hj].
    - intros p m Hm j Hj. cbn in Hm. repeat (apply elem_of_cons in Hm as [Hm|Hm]); try done; try (by apply elem_of_nil in Hm);
        injection Hm as -> ->; by apply elem_of_nil in Hj. }
  assert (no_period []) as Hn by (intros p m H; by apply elem_of_nil in H). unfold late_revocation, s0. split_and!.
  - apply (vector_exactly x z c cc ty k d1 d2 [] [] 7 _ i Hz Hn Hok). right. right. left.
  - done.
  - intros d Hd Hr. assert (i ∈ [] \/ CRevoke i ∈ []) as [H|H].
    + apply (published_exactly x z c cc ty k d1 d2 [] [] 7 _ i Hz Hn Hok). exists d. done.
    + by apply elem_of_nil in H.
    + by apply elem_of_nil in H.
Qed.

(** C39: and the signed hash then fails at a receiver that has everything published. *)
Lemma late_rejected : let s := toy_run (toy_ca0 0 0) [CPeriod [] 7; CRevoke 5] in
  let old := applied (deltas toy_z (all_published toy_x toy_z toy_ca (toy_cc "localhost:9000" 0) (toy_ca0 0 0) [CPeriod [] 7; CRevoke 5])) in
  let g := obj_at (a_rev (ca_end_period toy_z toy_ca s [] 8)) (unpadded 9) in
  verify_srh (toy_cc "localhost:9000" 0) (fst (srh_and_dcrv toy_z g)) (snd (srh_and_dcrv toy_z g)) old (g_period g) = Reject /\
  verify (toy_cc "localhost:9000" 0) g = Accept.
Proof.
  intros s old g.
  assert (indexes_ok ([] ++ CPeriod [] 7 :: [CRevoke 5])) as Hok.
  { split.
    - intros j Hj. cbn in Hj. repeat (apply elem_of_cons in Hj as [Hj|Hj]); try done; [injection Hj as ->; unfold index_ok; lia|by apply elem_of_nil in Hj].
    - intros p m Hm j Hj. cbn in Hm. repeat (apply elem_of_cons in Hm as [Hm|Hm]); try done; try (by apply elem_of_nil in Hm);
        injection Hm as -> ->; by apply elem_of_nil in Hj. }
  assert (no_period []) as Hn by (intros p m H; by apply elem_of_nil in H).
  destruct (published_deltas toy_x toy_z toy_ca (toy_cc "localhost:9000" 0) 0 0 (toy_draw 1 "a") (toy_draw 2 "b") [] [] 7 [CRevoke 5] toy_gzip Hn Hok)
    as (_ & (r & Ed & Hr) & E1 & E2 & E3).
  cbn [fold_left singles omap list_omap] in Ed, E1. change (ca_init toy_x toy_ca 0 0 (toy_draw 1 "a") (toy_draw 2 "b")) with (toy_ca0 0 0) in *.
  change ([] ++ [CPeriod [] 7; CRevoke 5])%list with [CPeriod [] 7; CRevoke 5] in *.
  fold s in E1, E2, E3. unfold old. rewrite Ed. clear old. clearbody s.
  assert (g = generate_revocation toy_z (cac_key toy_ca) (cac_self toy_ca) (cac_signer toy_ca) (vector_at s []) (a_online s) (unpadded 9) false) as Eg.
  { destruct (period_objects toy_x toy_z toy_ca (toy_cc "localhost:9000" 0) s [] 8) as [Er _]. cbn [ca_step] in Er. exact Er. }
  assert (vector_at s [] = a_crv s) as Ev by (unfold vector_at; by rewrite E3). rewrite Ev in Eg.
  assert (crv_delta (a_crv s) = bs_new crv_size) as Edl by (unfold crv_delta; by rewrite E2).
  clearbody g. rewrite Eg. split.
  - rewrite generated_decodes; [|apply toy_gzip|unfold revocation_delta; rewrite Edl; apply cur_ok_ok, cur_ok_new].
    cbn [fst snd]. rewrite (verify_srh_signed (P:=toy) _ _ ("k3" : rsa_pub toy)) by done. unfold revocation_delta. rewrite Edl, E1.
    cbn [applied]. rewrite (unions_empty r _ cur_ok_new Hr). change (default ?a (Some ?b)) with b.
    change (g_period _) with (unpadded 9).
    match goal with |- (if ?b then _ else _) = _ => destruct b eqn:E; [|done] end. exfalso.
    cbn [rsa_check toy rsa_sign cac_key toy_ca] in E. apply String.eqb_eq in E. apply app_inj_l, app_inj_l in E.
    unfold srh_message in E. cbn [h_sha256 toy] in E. apply (app_inj_l "#"), app_inj_l, app_inj_r, (app_inj_l "#") in E.
    apply bs_marshal_inj in E; [|apply cur_ok_ok, bs_ok_set_cur; [apply cur_ok_new|unfold index_ok; lia]|apply cur_ok_ok, cur_ok_new].
    apply (f_equal (λ b, bs_test b 5)) in E.
    rewrite bs_test_set, bs_test_new in E by apply bs_trim_new. done.
  - assert (forall v n, verify (toy_cc "localhost:9000" 0)
      (generate_revocation toy_z (cac_key toy_ca) (cac_self toy_ca) (cac_signer toy_ca) v n (unpadded 9) false) = Accept) as H; [|apply H].
    intros v n. exact (generated_verifies (P:=toy) (toy_cc "localhost:9000" 0) toy_z "k3" "k3" "localhost:9000" "localhost:9000" v n (unpadded 9) false
      eq_refl eq_refl eq_refl ltac:(done) (λ m, String.eqb_refl ("k3:" ++ m))).
Qed.

(** C60: two handlers at once, both having read the certificate before either writes. *)
Definition toy_sth (id sk : string) : gobj := toy_init STH_INIT "8" sk id "root" "".
Definition toy_poi (logger : string) : poi := mkpoi (Some (mkproof ["h"] 1)) "#pub1" "localhost:9000" logger.
Definition poi_history : list caevent :=
  [CIssue [toy_draw 7 "pub1"; toy_draw 8 "pub2"]; CSth (toy_sth "localhost:9100" "k1"); CSth (toy_sth "localhost:9101" "k2")].
Definition lost_schedule : list poi_event :=
  [PoiRead 1 (toy_poi "localhost:9100"); PoiRead 2 (toy_poi "localhost:9101"); PoiWrite 1; PoiWrite 2].

Lemma option_witness {A B} (f : A -> B) o y : option_map f o = Some y -> exists a, o = Some a /\ f a = y.
Proof. destruct o as [a|]; [|done]. intros H. apply (inj Some) in H. by exists a. Qed.

Lemma poi_lost : let s := toy_run (toy_ca0 0 0) poi_history in
  exists crt, get_by_ski (a_pool (fst (fold_left poi_step lost_schedule (s, ∅)))) "#pub1" = Some crt /\
    map (λ i, g_signer (li_sth i)) (x_infos (parse_ctng crt)) = ["localhost:9101"].
Proof. apply (option_witness (λ crt, map (λ i, g_signer (li_sth i)) (x_infos (parse_ctng crt)))). vm_compute. reflexivity. Qed.

(** C60: a proof that arrives before the tree head of its logger is filed under an empty head. *)
Lemma poi_early : let s := toy_run (toy_ca0 0 0) [CIssue [toy_draw 7 "pub1"]; CPoi (toy_poi "localhost:9100");
    CSth (toy_sth "localhost:9100" "k1"); CSth (toy_sth "localhost:9101" "k2")] in
  exists crt i, get_by_ski (a_pool s) "#pub1" = Some crt /\ x_infos (parse_ctng crt) = [i] /\ li_sth i = zero_obj.
Proof.
  intros s. destruct (option_witness (λ crt, map li_sth (x_infos (parse_ctng crt))) (get_by_ski (a_pool s) "#pub1") [zero_obj]) as (crt & E & F).
  { vm_compute. reflexivity. }
  exists crt. destruct (x_infos (parse_ctng crt)) as [|i [|j l]] eqn:G; [done| |done]. exists i. split; [exact E|]. split; [reflexivity|]. exact (f_equal (hd zero_obj) F).
Qed.

(** C61: the other object is the same object when its bit is already revoked. *)
Lemma not_evidence {P : prims} x z (c : caconf P) (cc : cconf P) ty k d1 d2 : gzip_ok z ->
  let s := ca_end_period z c (ca_init x c ty k d1 d2) [1%N] 7 in
  obj_at (a_fake s) (unpadded 8) = obj_at (a_rev s) (unpadded 8).
Proof.
  intros Hz s.
  assert (indexes_ok ([] ++ [CPeriod [1%N] 7])) as Hok.
  { split; [intros i H; by apply elem_of_list_singleton in H|]. intros p m H%elem_of_list_singleton. injection H as -> ->.
    intros i ->%elem_of_list_singleton. unfold index_ok. lia. }
  assert (Z.of_nat (length (@nil caevent)) < 18446744073709551614)%Z as Hl by (cbn; lia).
  destruct (two_objects x z c cc ty k d1 d2 [] [1%N] 7 Hz Hok Hl) as (_ & [_ H] & _).
  apply H. clear H. cbn [ca_run fold_left].
  assert (no_period []) as Hn by (intros p m H; by apply elem_of_nil in H).
  destruct (published_deltas x z c cc ty k d1 d2 [] [1%N] 7 [] Hz Hn Hok) as (_ & (r & E & _) & _).
  apply (f_equal (hd bs_zero)) in E.
  change (snd (srh_and_dcrv z (obj_at (a_rev (ca_step x z c cc (ca_init x c ty k d1 d2) (CPeriod [1%N] 7))) (unpadded 8))) =
          bs_set (bs_new crv_size) 1) in E.
  rewrite revokes_test. rewrite E.
  change (Z.to_N (1 + a_online (ca_init x c ty k d1 d2))) with 1%N.
  rewrite bs_test_set by apply bs_trim_new. done.
Qed.

(** C62: after minute 59 the object is filed under minute 60. *)
Lemma no_revocation_at_0 : let s := toy_run (toy_ca0 0 0) [CPeriod [] 59] in
  snd (request_rev s (next_minute 59)) = Answer zero_obj.
Proof.
  reflexivity.
Qed.

(** Instances used in the property file. *)
Lemma early_ok : gzip_ok toy_z /\ indexes_ok [CRevoke 4; CPeriod [2%N; 9%N] 7; CAsk 8; CPeriod [] 8] /\
  no_late_revocation [CRevoke 4; CPeriod [2%N; 9%N] 7; CAsk 8; CPeriod [] 8] /\ no_period [CRevoke 4].
Proof.
  split_and!.
  - apply toy_gzip.
  - split.
    + intros i H. repeat (apply elem_of_cons in H as [H|H]); try done; [injection H as ->; unfold index_ok; lia|by apply elem_of_nil in H].
    + intros p m H i Hi. repeat (apply elem_of_cons in H as [H|H]); try done; try (by apply elem_of_nil in H); injection H as -> ->.
      * repeat (apply elem_of_cons in Hi as [->|Hi]); try (unfold index_ok; lia). by apply elem_of_nil in Hi.
      * by apply elem_of_nil in Hi.
  - intros l1 l2 i E. destruct l1 as [|e1 l1]; [intros p m H; by apply elem_of_nil in H|]. exfalso.
    injection E as _ E. assert (CRevoke i ∈ [CPeriod [2%N; 9%N] 7; CAsk 8; CPeriod [] 8]) as H.
    { rewrite E. apply elem_of_app. right. left. }
    repeat (apply elem_of_cons in H as [H|H]); try done. by apply elem_of_nil in H.
  - intros p m H%elem_of_list_singleton. done.
Qed.

Lemma poi_fresh : let s := toy_run (toy_ca0 0 0) poi_history in
  exists crt, get_by_ski (a_pool s) "#pub1" = Some crt /\
    NoDup (map (λ j, g_signer (li_sth j)) (x_infos (parse_ctng crt) ++ map (info_of s) [toy_poi "localhost:9100"; toy_poi "localhost:9101"])) /\
    ext_ok (mkctng (x_rid (parse_ctng crt)) (x_infos (parse_ctng crt) ++ map (info_of s) [toy_poi "localhost:9100"; toy_poi "localhost:9101"])).
Proof.
  intros s. destruct (option_witness parse_ctng (get_by_ski (a_pool s) "#pub1") (mkctng 1 [])) as (crt & E & F); [vm_compute; reflexivity|].
  exists crt. split; [exact E|]. rewrite F. cbn [x_rid x_infos app].
  assert (a_sths s = {["localhost:9100" := toy_sth "localhost:9100" "k1"; "localhost:9101" := toy_sth "localhost:9101" "k2"]}) as G.
  { apply (bool_decide_unpack _). vm_compute. reflexivity. }
  assert (map (info_of s) [toy_poi "localhost:9100"; toy_poi "localhost:9101"] =
    [mkloginfo (toy_sth "localhost:9100" "k1") (toy_poi "localhost:9100"); mkloginfo (toy_sth "localhost:9101" "k2") (toy_poi "localhost:9101")]) as ->.
  { unfold info_of. cbn [map poi_logger toy_poi]. rewrite G. reflexivity. }
  split; [apply (bool_decide_unpack _); vm_compute; reflexivity|]. split; [vm_compute; split; discriminate|]. split.
  - repeat constructor; intros p H; apply (inj Some) in H as <-; done.
  - vm_compute. reflexivity.
Qed.

Lemma small_sizes : sizes_ok toy_x toy_z toy_ca (toy_cc "localhost:9000" 0) (toy_ca0 0 0) (poi_history ++ [CPoi (toy_poi "localhost:9100")]).
Proof.
  assert (forall l1, forallb (λ crt, forallb (λ e, N.ltb (N.of_nat (String.length (e_value e))) 2147483648) (c_exts crt))
            (get_certs (a_pool (toy_run (toy_ca0 0 0) l1))) = true ->
          forall crt (e : ext), crt ∈ get_certs (a_pool (toy_run (toy_ca0 0 0) l1)) -> e ∈ c_exts crt ->
          (N.of_nat (String.length (e_value e)) < 2147483648)%N) as H.
  { intros l1 H crt e Hc He. rewrite forallb_forall in H. specialize (H crt (proj1 (elem_of_list_In _ _) Hc)).
    rewrite forallb_forall in H. specialize (H e (proj1 (elem_of_list_In _ _) He)). by apply N.ltb_lt. }
  split.
  - intros l1 l2 crt e E Hc He. revert crt e Hc He. apply (H l1). clear H. unfold poi_history in E.
    do 5 (destruct l1 as [|? l1]; [vm_compute; reflexivity|injection E as <- E || by destruct l1]).
    all: try (by destruct l1).
  - intros p q Hp Hq. cbn in Hp. repeat (apply elem_of_cons in Hp as [Hp|Hp]); try done; [|by apply elem_of_nil in Hp].
    injection Hp as ->. apply (inj Some) in Hq as <-. done.
Qed.

(** C60: two handlers at once, for two certificates. *)
Definition toy_poi2 : poi := mkpoi (Some (mkproof ["h"] 1)) "#pub2" "localhost:9000" "localhost:9100".
Definition both_pois : gmap nat poi := {[1 := toy_poi "localhost:9100"; 2 := toy_poi2]}.
Definition both_schedule : list poi_event := [PoiRead 1 (toy_poi "localhost:9100"); PoiRead 2 toy_poi2; PoiWrite 2; PoiWrite 1].

Lemma both_handlers : handlers both_pois both_schedule /\ different both_pois.
Proof.
  split; [split_and!|].
  - intros k p H. unfold both_schedule in H. rewrite !elem_of_cons, elem_of_nil in H.
    destruct H as [[= -> ->]|[[= -> ->]|[?|[?|?]]]]; done.
  - unfold both_schedule. repeat (apply NoDup_cons; split; [rewrite ?elem_of_cons, ?elem_of_nil; intuition congruence|]). constructor.
  - intros l1 k l2 E. unfold both_schedule in E. destruct l1 as [|a [|b [|d l1]]]; try discriminate E; injection E; intros; subst.
    + exists toy_poi2. right. left.
    + destruct l1 as [|y l1]; [|destruct l1; discriminate]. match goal with H : [PoiWrite 1] = _ |- _ => injection H as <- _ end.
      exists (toy_poi "localhost:9100"). left.
  - intros k k' p p'. unfold both_pois. rewrite !lookup_insert_Some, !lookup_singleton_Some.
    intros [[<- <-]|[? [<- <-]]] [[<- <-]|[? [<- <-]]] Hn; try done.
Qed.

Lemma both_fresh : let s := toy_run (toy_ca0 0 0) poi_history in
  exists c1 c2, get_by_ski (a_pool s) (poi_ski (toy_poi "localhost:9100")) = Some c1 /\ get_by_ski (a_pool s) (poi_ski toy_poi2) = Some c2 /\ c_pub c1 <> c_pub c2 /\
    ext_ok (mkctng (x_rid (parse_ctng c1)) (x_infos (parse_ctng c1) ++ [info_of s (toy_poi "localhost:9100")])) /\
    ext_ok (mkctng (x_rid (parse_ctng c2)) (x_infos (parse_ctng c2) ++ [info_of s toy_poi2])).
Proof.
  intros s.
  destruct (option_witness (λ c, (c_pub c, parse_ctng c)) (get_by_ski (a_pool s) "#pub1") ("pub1", mkctng 1 [])) as (c1 & E1 & F1); [vm_compute; reflexivity|].
  destruct (option_witness (λ c, (c_pub c, parse_ctng c)) (get_by_ski (a_pool s) "#pub2") ("pub2", mkctng 2 [])) as (c2 & E2 & F2); [vm_compute; reflexivity|].
  injection F1 as P1 F1. injection F2 as P2 F2.
  exists c1, c2. split; [exact E1|]. split; [exact E2|]. rewrite F1, F2, P1, P2. cbn [x_rid x_infos app].
  assert (obj_at (a_sths s) "localhost:9100" = toy_sth "localhost:9100" "k1") as G by (vm_compute; reflexivity).
  unfold info_of. cbn [poi_logger toy_poi toy_poi2]. rewrite G.
  split; [discriminate|]. split; (split; [vm_compute; split; discriminate|]; split;
    [repeat constructor; intros p H; apply (inj Some) in H as <-; done|vm_compute; reflexivity]).
Qed.
