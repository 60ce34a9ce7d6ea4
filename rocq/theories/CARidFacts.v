(** Revocation identifiers (CA.v). *)
From Verif Require Import Bytes Hex Base64 Json Types Crypto Verify Merkle Cert CertPool CTngExt Clock Bitset Revocation CA
  SpecCodec SpecCert SpecCA CodecFacts JsonFacts CertFacts ExtFacts BitsetFacts RevocationFacts CAFacts.
From Coq Require Import DecimalString.
From Coq Require DecimalFacts.
Open Scope string_scope.

(** ** The size of a number *)
Lemma len_digits d : len (NilEmpty.string_of_uint d) = Decimal.nb_digits d.
Proof. unfold len. induction d as [|u IH|u IH|u IH|u IH|u IH|u IH|u IH|u IH|u IH|u IH]; cbn; [done|..]; by f_equal. Qed.

Lemma double_digits d : Decimal.nb_digits (Decimal.Little.double d) <= S (Decimal.nb_digits d) /\
                        Decimal.nb_digits (Decimal.Little.succ_double d) <= S (Decimal.nb_digits d).
Proof. induction d; cbn; lia. Qed.

Lemma little_digits p : Decimal.nb_digits (Pos.to_little_uint p) <= Pos.size_nat p.
Proof.
  induction p as [p IH|p IH|]; cbn [Pos.to_little_uint Pos.size_nat]; [| |cbn; lia];
    destruct (double_digits (Pos.to_little_uint p)); lia.
Qed.

Lemma len_itoa_pos p : len (itoa (Z.pos p)) <= S (Pos.size_nat p).
Proof.
  unfold itoa. cbn [Z.to_int NilZero.string_of_int]. unfold NilZero.string_of_uint. unfold Pos.to_uint.
  pose proof (little_digits p) as H. pose proof (DecimalFacts.nb_digits_rev (Pos.to_little_uint p)) as E.
  destruct (Decimal.rev (Pos.to_little_uint p)) as [|u|u|u|u|u|u|u|u|u|u] eqn:F; [cbn; lia|..];
    rewrite <- F, len_digits, F, E; lia.
Qed.

Lemma size_le p n : (Z.pos p < 2 ^ Z.of_nat n)%Z -> Pos.size_nat p <= n.
Proof.
  revert n. induction p as [p IH|p IH|]; intros n Hp; cbn [Pos.size_nat].
  - destruct n as [|n]; [cbn in Hp; lia|]. rewrite Nat2Z.inj_succ, Z.pow_succ_r in Hp by lia. apply le_n_S, IH. lia.
  - destruct n as [|n]; [cbn in Hp; lia|]. rewrite Nat2Z.inj_succ, Z.pow_succ_r in Hp by lia. apply le_n_S, IH. lia.
  - destruct n as [|n]; [cbn in Hp; lia|lia].
Qed.

Lemma len_itoa z : (0 <= z <= int64_max)%Z -> len (itoa z) <= 64.
Proof.
  intros Hz. destruct z as [|p|p]; [cbn; lia| |lia]. etransitivity; [apply len_itoa_pos|].
  apply le_n_S. apply size_le. change (2 ^ Z.of_nat 63)%Z with 9223372036854775808%Z. unfold int64_max in Hz. lia.
Qed.

Lemma ext_ok_rid z : (0 <= z <= int64_max)%Z -> ext_ok (mkctng z []).
Proof.
  intros Hz. split_and!; [unfold int64_max in *; cbn [x_rid]; lia|exact (proj2 Hz)|constructor|].
  unfold ctng_json. cbn [x_rid x_infos]. change (String.length ?s) with (len s).
  destruct (Z.eqb z 0); [vm_compute; reflexivity|]. pose proof (len_itoa z Hz) as H.
  cbn [app print_json]. rewrite ?len_app. cbn -[N.of_nat itoa]. rewrite ?len_app. unfold len in *. cbn -[N.of_nat itoa]. lia.
Qed.

(** ** Issuing *)
Lemma filter_std x c : std_ok x -> List.filter is_ctng (xl_std x c) = [].
Proof.
  intros Hx. specialize (Hx c). induction (xl_std x c) as [|e l IH]; [done|]. cbn [List.filter].
  unfold is_ctng at 1. destruct (String.eqb_spec (e_oid e) OID_CTNG) as [E|_]; [exfalso; by eapply Hx; [by left|]|].
  apply IH. intros e' He'. apply Hx. by right.
Qed.

Section ca.
Context {P : prims} (x : x509lib) (z : gzip) (c : caconf P) (cc : cconf P) (Hstd : std_ok x).
Implicit Types (s : cast) (e : caevent) (l : list caevent).
Notation step := (ca_step x z c cc).
Notation run := (ca_run x z c cc).

Lemma parse_signed key tmpl parent pub b v : c_extra tmpl = [mkext OID_CTNG b v] ->
  parse_ctng (sign_certificate (P:=P) x key tmpl parent pub) = decode_ctng v.
Proof using Hstd.
  intros He. rewrite parse_ctng_last. unfold sign_certificate. cbn [c_exts set_exts]. rewrite He.
  rewrite List.filter_app, filter_std by done. done.
Qed.

Lemma signed_fields key tmpl parent pub : let f := sign_certificate (P:=P) x key tmpl parent pub in
  c_subject f = name_of x tmpl /\ c_subject_cn f = c_subject_cn tmpl /\ c_issuer_cn f = c_subject_cn parent /\
  c_pub f = pub /\ c_ski f = (if is_empty (c_ski tmpl) then h_sha256 P pub else c_ski tmpl).
Proof. done. Qed.

Lemma gen_length root offset ds : forall i n, length (generate_n x c root offset i n ds) = length ds.
Proof. induction ds as [|d ds IH]; intros i n; [done|]. cbn. by rewrite IH. Qed.

Lemma issued_rids root offset ds : forall i n, (0 <= n)%Z -> (n + Z.of_nat (length ds) <= int64_max + 1)%Z ->
  map cert_rid (generate_n x c root offset i n ds) = seqZ n (Z.of_nat (length ds)).
Proof using Hstd.
  induction ds as [|d ds IH]; intros i n H0 Hn; [done|]. cbn [generate_n map length] in *.
  rewrite IH; [|lia|lia]. rewrite (seqZ_cons n (Z.of_nat (S (length ds)))) by lia. replace (Z.pred (Z.of_nat (S (length ds)))) with (Z.of_nat (length ds)) by lia.
  change (n + 1)%Z with (Z.succ n). f_equal.
  unfold cert_rid. erewrite parse_signed by done. rewrite decode_encode; [done|]. apply ext_ok_rid. lia.
Qed.

Lemma issued_names root offset ds : forall i n j f, generate_n x c root offset i n ds !! j = Some f ->
  c_subject_cn f = "Testing Dummy " ++ itoa (i + Z.of_nat j + offset).
Proof.
  induction ds as [|d ds IH]; intros i n j f Hj; [done|]. cbn [generate_n] in Hj. destruct j as [|j].
  - injection Hj as <-. by replace (i + Z.of_nat 0 + offset)%Z with (i + offset)%Z by lia.
  - apply IH in Hj. rewrite Hj. by replace (i + 1 + Z.of_nat j + offset)%Z with (i + Z.of_nat (S j) + offset)%Z by lia.
Qed.

Lemma generated_shape root offset ds : forall i n f, f ∈ generate_n x c root offset i n ds ->
  c_issuer_cn f = c_subject_cn root /\ c_extra f = [] /\ c_ski f = h_sha256 P (c_pub f) /\ c_subject f = xl_name x (c_subject_cn f).
Proof.
  induction ds as [|d ds IH]; intros i n f Hf; [by apply elem_of_nil in Hf|]. cbn [generate_n] in Hf.
  apply elem_of_cons in Hf as [->|Hf]; [done|by eapply IH].
Qed.

Lemma step_counter s e : a_counter (step s e) = (a_counter s + Z.of_nat (length (ca_issued x c s e)))%Z /\ a_root (step s e) = a_root s.
Proof.
  destruct e; cbn [ca_step ca_issued length].
  - split; [|done]. cbn [issue fst snd a_counter set_a_pool set_a_counter set_a_sths]. f_equal. f_equal.
    by rewrite gen_length.
  - destruct (sth_frame cc s g) as (_ & _ & -> & -> & _). split; [lia|done].
  - destruct (poi_frame s p) as (_ & _ & -> & -> & _). split; [lia|done].
  - destruct (ask_frame s m) as (_ & _ & -> & -> & _). split; [lia|done].
  - cbn. split; [lia|done].
  - cbn. split; [lia|done].
Qed.

Lemma run_counter l : forall s, a_counter (run s l) = (a_counter s + Z.of_nat (length (all_issued x z c cc s l)))%Z /\ a_root (run s l) = a_root s.
Proof.
  induction l as [|e l IH]; intros s; [cbn; split; [lia|done]|]. change (run s (e :: l)) with (run (step s e) l).
  destruct (IH (step s e)) as [-> ->]. destruct (step_counter s e) as [-> ->]. cbn [all_issued]. rewrite app_length. split; [lia|done].
Qed.

Lemma event_rids s e : (0 <= a_counter s)%Z -> (a_counter s + Z.of_nat (length (ca_issued x c s e)) <= int64_max + 1)%Z ->
  map cert_rid (ca_issued x c s e) = seqZ (a_counter s) (Z.of_nat (length (ca_issued x c s e))).
Proof using Hstd.
  intros H0 Hn. destruct e; try done. cbn [ca_issued issue fst snd] in *. rewrite gen_length in *. by apply issued_rids.
Qed.

Lemma all_rids l : forall s, (0 <= a_counter s)%Z -> (a_counter s + Z.of_nat (length (all_issued x z c cc s l)) <= int64_max + 1)%Z ->
  map cert_rid (all_issued x z c cc s l) = seqZ (a_counter s) (Z.of_nat (length (all_issued x z c cc s l))).
Proof using Hstd.
  induction l as [|e l IH]; intros s H0 Hn; [done|]. cbn [all_issued] in *. rewrite app_length in *. rewrite map_app.
  destruct (step_counter s e) as [E _]. rewrite IH, event_rids; [|lia..]. rewrite E, Nat2Z.inj_add. symmetry. apply seqZ_app; lia.
Qed.

Lemma all_names l : forall s f, (0 <= a_counter s)%Z -> (a_counter s + Z.of_nat (length (all_issued x z c cc s l)) <= int64_max + 1)%Z ->
  f ∈ all_issued x z c cc s l -> c_subject_cn f = "Testing Dummy " ++ itoa (cert_rid f) /\ c_subject f = xl_name x (c_subject_cn f) /\
    c_ski f = h_sha256 P (c_pub f) /\ c_issuer_cn f = c_subject_cn (a_root s).
Proof using Hstd.
  induction l as [|e l IH]; intros s f H0 Hn Hf; [by apply elem_of_nil in Hf|]. cbn [all_issued] in *. rewrite app_length in Hn.
  destruct (step_counter s e) as [E Er]. apply elem_of_app in Hf as [Hf|Hf]; [|rewrite <- Er; apply IH; [lia|lia|done]].
  pose proof (event_rids s e) as Hr. destruct e; try by apply elem_of_nil in Hf.
  cbn [ca_issued issue fst snd] in *. destruct (generated_shape _ _ _ _ _ _ Hf) as (H1 & H2 & H3 & H4).
  split_and!; try done. apply elem_of_list_lookup in Hf as [j Hj].
  pose proof (issued_names _ _ _ _ _ _ _ Hj) as ->. rewrite gen_length in Hr.
  assert (map cert_rid (generate_n x c (a_root s) (a_counter s) 0 (a_counter s) ds) !! j = Some (cert_rid f)) as Hm by (rewrite list_lookup_fmap, Hj; done).
  rewrite Hr in Hm; [|done|rewrite gen_length in *; lia]. apply lookup_seqZ in Hm as [-> _].
  by replace (0 + Z.of_nat j + a_counter s)%Z with (a_counter s + Z.of_nat j)%Z by lia.
Qed.

(** ** The pool *)
Definition stage (iss : list cert) (crt : cert) : Prop :=
  exists o y, o ∈ iss /\ same_subject crt o /\ c_exts crt = [mkext OID_CTNG false (encode_ctng y)] /\ ext_ok y /\
              x_rid y = cert_rid o /\ c_extra crt = [].

Lemma stage_mono i1 i2 crt : (forall o, o ∈ i1 -> o ∈ i2) -> stage i1 crt -> stage i2 crt.
Proof. intros H (o & y & Ho & R). exists o, y. split; [by apply H|done]. Qed.

Lemma add_in (s : pool) crt d : d ∈ p_certs (add_cert s crt) -> d ∈ p_certs s \/ d = crt.
Proof.
  unfold add_cert. destruct (contains s crt); [by left|]. cbn [p_certs]. rewrite elem_of_app, elem_of_list_singleton. done.
Qed.

Lemma adds_in (l : list cert) : forall (s : pool) d, d ∈ p_certs (fold_left add_cert l s) -> d ∈ p_certs s \/ d ∈ l.
Proof.
  induction l as [|crt l IH]; intros s d Hd; [by left|]. cbn [fold_left] in Hd. apply IH in Hd as [Hd|Hd]; [|right; by right].
  apply add_in in Hd as [Hd| ->]; [by left|right; by left].
Qed.

Lemma get_in (s : pool) k crt : get_by_ski s k = Some crt -> crt ∈ p_certs s.
Proof. unfold get_by_ski. destruct (indexes _ k); [done|]. apply elem_of_list_lookup_2. Qed.

Lemma update_in (s : pool) k crt old d : get_by_ski s k = Some old -> d ∈ p_certs (update_by_ski s k crt) -> d ∈ p_certs s \/ d = crt.
Proof.
  unfold get_by_ski, update_by_ski. destruct (indexes _ k) as [|i r]; [done|]. cbn [p_certs]. intros Hi Hd.
  apply elem_of_list_lookup in Hd as [j Hj]. destruct (decide (i = j)) as [->|Hn].
  - rewrite list_lookup_insert in Hj by (by eapply lookup_lt_Some). right. congruence.
  - rewrite list_lookup_insert_ne in Hj by done. left. by eapply elem_of_list_lookup_2.
Qed.

Lemma update_there (s : pool) k crt old : get_by_ski s k = Some old -> crt ∈ p_certs (update_by_ski s k crt).
Proof.
  unfold get_by_ski, update_by_ski. destruct (indexes _ k) as [|i r]; [done|]. cbn [p_certs]. intros Hi.
  eapply elem_of_list_lookup_2. apply list_lookup_insert. by eapply lookup_lt_Some.
Qed.

Lemma stage_parse iss crt : stage iss crt -> exists y, parse_ctng crt = y /\ c_exts crt = [mkext OID_CTNG false (encode_ctng y)] /\ ext_ok y.
Proof.
  intros (o & y & _ & _ & E & Hy & _). exists y. split_and!; [|done|done].
  rewrite parse_ctng_last, E. cbn. by apply decode_encode.
Qed.

Lemma stage_rid iss crt : stage iss crt -> exists o, o ∈ iss /\ same_subject crt o /\ cert_rid crt = cert_rid o.
Proof.
  intros (o & y & Ho & Hs & E & Hy & Hr & _). exists o. split_and!; try done.
  unfold cert_rid at 1. rewrite parse_ctng_last, E. cbn. by rewrite decode_encode.
Qed.

Lemma octet_len b : len b <= len (octet_string b).
Proof. unfold octet_string. cbn [len String.length]. change (String.length ?s) with (len s). rewrite len_app. lia. Qed.

Lemma stage_update iss crt i : stage iss crt -> info_ok i ->
  (forall e : ext, e ∈ c_exts (update_ctng crt i) -> (N.of_nat (len (e_value e)) < 2147483648)%N) -> stage iss (update_ctng crt i).
Proof.
  intros Hs Hi Hl. destruct (stage_parse iss crt Hs) as (y0 & Ey & E0 & Hy0). destruct Hs as (o & y & Ho & Hss & E & Hy & Hr & Hx).
  unfold update_ctng in *. rewrite Ey in *. destruct (existsb _ _); [by exists o, y|].
  rewrite E in Hl |- *. cbn [map e_oid] in *. change (String.eqb OID_CTNG OID_CTNG) with true in *. cbn iota in *. cbn [e_critical] in *.
  cbn [c_exts set_exts] in Hl. specialize (Hl _ (elem_of_list_here _ _)). cbn [e_value] in Hl.
  assert (y0 = y) as ->.
  { rewrite <- Ey, parse_ctng_last, E. cbn. by apply decode_encode. }
  exists o, (mkctng (x_rid y) (x_infos y ++ [i])). split_and!; try done.
  split_and!; [apply Hy|apply Hy| |].
  - cbn [x_infos]. apply Forall_app. split; [apply Hy|by constructor].
  - pose proof (octet_len (print_json (ctng_json (mkctng (x_rid y) (x_infos y ++ [i]))))) as H.
    unfold encode_ctng in Hl. change (String.length ?s) with (len s). lia.
Qed.

Lemma stage_precert iss f : f ∈ iss -> (0 <= cert_rid f <= int64_max)%Z -> stage iss (precert_of f).
Proof.
  intros Hf Hr. exists f, (mkctng (cert_rid f) []). split_and!; try done. by apply ext_ok_rid.
Qed.

Lemma pool_stages l : forall s iss,
  Forall (stage iss) (p_certs (a_pool s)) -> (0 <= a_counter s)%Z ->
  (a_counter s + Z.of_nat (length (all_issued x z c cc s l)) <= int64_max + 1)%Z -> sizes_ok x z c cc s l ->
  Forall (stage (iss ++ all_issued x z c cc s l)) (p_certs (a_pool (run s l))).
Proof using Hstd.
  induction l as [|e l IH]; intros s iss Hs H0 Hn [Hz1 Hz2].
  - cbn. by rewrite app_nil_r.
  - cbn [all_issued] in *. rewrite app_assoc. change (run s (e :: l)) with (run (step s e) l). rewrite app_length in Hn.
    destruct (step_counter s e) as [E _]. apply IH; [|lia|lia|].
    + apply Forall_forall. intros crt Hcrt. rewrite Forall_forall in Hs.
      assert (crt ∈ p_certs (a_pool s) -> stage (iss ++ ca_issued x c s e) crt) as Hold.
      { intros H. eapply stage_mono; [|by apply Hs]. intros o Ho. apply elem_of_app. by left. }
      destruct e as [ds|g|p|m|i|ps m]; cbn [ca_step] in Hcrt.
      * cbn [issue fst a_pool set_a_pool] in Hcrt. apply adds_in in Hcrt as [Hcrt|Hcrt]; [by apply Hold|].
        apply elem_of_list_fmap in Hcrt as (f & -> & Hf). apply stage_precert; [apply elem_of_app; right; exact Hf|].
        pose proof (event_rids s (CIssue ds)) as Hr.
        assert (cert_rid f ∈ map cert_rid (ca_issued x c s (CIssue ds))) as Hin by (apply elem_of_list_fmap; exists f; done).
        rewrite Hr in Hin by lia. apply elem_of_seqZ in Hin. lia.
      * destruct (sth_frame cc s g) as (_ & _ & _ & _ & _ & _ & _ & _ & _ & _ & Ep). cbn zeta in Ep. rewrite Ep in Hcrt. by apply Hold.
      * unfold receive_poi in Hcrt. destruct (get_by_ski (a_pool s) (poi_ski p)) as [old|] eqn:Eg; [|by apply Hold].
        cbn [a_pool set_a_pool] in Hcrt. destruct (update_in _ _ _ _ _ Eg Hcrt) as [H| ->]; [by apply Hold|].
        apply (stage_update (iss ++ ca_issued x c s (CPoi p))).
        -- eapply stage_mono; [|apply Hs; by eapply get_in]. intros o Ho. apply elem_of_app. by left.
        -- intros q Hq. cbn [li_poi] in Hq. eapply Hz2; [by left|done].
        -- intros e He. eapply (Hz1 [CPoi p] l); [done| |exact He]. cbn [ca_run fold_left ca_step].
           unfold receive_poi. rewrite Eg. cbn [a_pool set_a_pool]. by eapply update_there.
      * destruct (ask_frame s m) as (_ & _ & _ & _ & _ & _ & _ & Ep & _). cbn zeta in Ep. rewrite Ep in Hcrt. by apply Hold.
      * by apply Hold.
      * by apply elem_of_nil in Hcrt.
    + split.
      * intros l1 l2 crt e' -> H1 H2. eapply (Hz1 (e :: l1) l2); [done|exact H1|done].
      * intros p q Hp. apply Hz2. by right.
Qed.

(** ** The theorems *)
Lemma init_counter ty k d1 d2 : a_counter (ca_init x c ty k d1 d2) = 1%Z /\ cert_rid (a_root (ca_init x c ty k d1 d2)) = 1%Z /\
  a_pool (ca_init x c ty k d1 d2) = new_pool /\ c_subject_cn (a_root (ca_init x c ty k d1 d2)) = cac_signer c.
Proof using Hstd.
  split_and!; try done. unfold cert_rid. cbn [ca_init generate_root a_root]. erewrite parse_signed by done.
  rewrite decode_encode; [done|]. apply ext_ok_rid. unfold int64_max. lia.
Qed.

Lemma issued_distinct ty k d1 d2 l : let s0 := ca_init x c ty k d1 d2 in
  (Z.of_nat (length (all_issued x z c cc s0 l)) <= int64_max)%Z ->
  map cert_rid (all_issued x z c cc s0 l) = map (λ n, Z.of_nat n + 1)%Z (seq 0 (length (all_issued x z c cc s0 l))).
Proof using Hstd.
  intros s0 Hn. destruct (init_counter ty k d1 d2) as [E _]. fold s0 in E. rewrite all_rids; rewrite E; [|lia..].
  unfold seqZ. rewrite Nat2Z.id. done.
Qed.

Lemma rids_distinct ty k d1 d2 l : let s0 := ca_init x c ty k d1 d2 in
  (Z.of_nat (length (all_issued x z c cc s0 l)) <= int64_max)%Z ->
  NoDup (map cert_rid (all_issued x z c cc s0 l)) /\
  map cert_rid (all_issued x z c cc s0 l) = map (λ n, Z.of_nat n + 1)%Z (seq 0 (length (all_issued x z c cc s0 l))).
Proof using Hstd.
  intros s0 Hn. pose proof (issued_distinct ty k d1 d2 l Hn) as E. fold s0 in E. split; [|exact E]. rewrite E.
  apply NoDup_fmap_2; [intros a b H; lia|]. apply NoDup_seq.
Qed.

Lemma stays ty k d1 d2 l crt : let s0 := ca_init x c ty k d1 d2 in
  (Z.of_nat (length (all_issued x z c cc s0 l)) <= int64_max)%Z -> sizes_ok x z c cc s0 l ->
  crt ∈ get_certs (a_pool (run s0 l)) \/ crt ∈ sign_all x c (run s0 l) ->
  exists o, o ∈ all_issued x z c cc s0 l /\ same_subject crt o /\ cert_rid crt = cert_rid o.
Proof using Hstd.
  intros s0 Hn Hz Hin. destruct (init_counter ty k d1 d2) as (E & _ & Ep & _).
  fold s0 in E, Ep. 
  assert (forall d, d ∈ p_certs (a_pool (run s0 l)) -> stage (all_issued x z c cc s0 l) d) as Hall.
  { apply Forall_forall. apply (pool_stages l s0 []); [|rewrite E; lia..|done]. rewrite Ep. constructor. }
  destruct Hin as [Hin|Hin]; [by apply stage_rid, Hall|].
  unfold sign_all in Hin. apply elem_of_list_fmap in Hin as (d & -> & Hd). specialize (Hall d Hd).
  destruct (stage_rid _ _ Hall) as (o & Ho & Hs & Hr). exists o. split_and!; [done| |].
  - destruct Hs as (S1 & S2 & S3 & S4). destruct (all_names l s0 o) as (N1 & N2 & N3 & N4); [rewrite E; lia..|done|].
    unfold same_subject. cbn [sign_certificate c_subject c_subject_cn c_pub c_ski update_for_signing set_extra name_of].
    unfold name_of. cbn [c_subject c_subject_cn update_for_signing set_extra]. rewrite S1, S2, S3, S4. split_and!; try done.
    + destruct (is_empty (c_subject o)) eqn:Ee; [|done]. by rewrite N2.
    + destruct (is_empty (c_ski o)) eqn:Ee; [|done]. by rewrite N3.
  - rewrite <- Hr. unfold cert_rid. destruct (stage_parse _ _ Hall) as (y & Ey & _ & Hy).
    erewrite parse_signed; [|cbn [update_for_signing set_extra c_extra]; destruct Hall as (o' & y' & _ & _ & _ & _ & _ & ->); done].
    rewrite Ey, decode_encode by done. done.
Qed.
End ca.
