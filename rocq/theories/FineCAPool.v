(** The certificates in the pool (FineCA.v). *)
From Verif Require Import Bytes Hex Base64 Json Types Crypto Verify Merkle Cert CertPool CTngExt Clock Bitset Revocation CA FineCA
  SpecCodec SpecCert SpecCA SpecFineCA CertFacts ExtFacts BitsetFacts RevocationFacts CAFacts CARidFacts CAPoiFacts FineCAFacts FineCAMore.
From Verif Require Logger.
Open Scope string_scope.

(** ** The index by key identifier *)
Definition ski_ok (s : pool) : Prop := forall k i, i ∈ indexes (p_by_ski s) k -> exists d, p_certs s !! i = Some d /\ c_ski d = k.
Lemma ski_new : ski_ok new_pool.
Proof. intros k i H. unfold indexes in H. cbn in H. rewrite lookup_empty in H. by apply elem_of_nil in H. Qed.
Lemma ski_add s d : ski_ok s -> ski_ok (add_cert s d).
Proof.
  intros H k i. unfold add_cert. destruct (contains s d); [by apply H|]. cbn [p_by_ski p_certs]. intros Hi.
  assert (i ∈ indexes (p_by_ski s) k \/ i = length (p_certs s) /\ c_ski d = k) as [K|[-> K]].
  { destruct (is_empty (c_ski d)); [by left|]. rewrite indexes_add in Hi. apply elem_of_app in Hi as [Hi|Hi]; [by left|right].
    destruct (String.eqb_spec (c_ski d) k); [by apply elem_of_list_singleton in Hi|by apply elem_of_nil in Hi]. }
  - destruct (H k i K) as (e & E & Ek). exists e. split; [|done]. by apply lookup_app_l_Some.
  - exists d. split; [|done]. by apply list_lookup_middle.
Qed.
Lemma ski_update s k d : ski_ok s -> c_ski d = k -> ski_ok (update_by_ski s k d).
Proof.
  intros H Ek. unfold update_by_ski. destruct (indexes (p_by_ski s) k) as [|j r] eqn:E; [done|]. intros k' i Hi. cbn [p_by_ski p_certs] in *.
  destruct (H k' i Hi) as (e & Ee & Ek'). destruct (decide (i = j)) as [->|N].
  - exists d. rewrite list_lookup_insert by (by eapply lookup_lt_Some). split; [done|]. assert (Hj : j ∈ indexes (p_by_ski s) k) by (rewrite E; by left). destruct (H k j Hj) as (e' & Ee' & <-). congruence.
  - exists e. by rewrite list_lookup_insert_ne.
Qed.
Lemma ski_get s k d : ski_ok s -> get_by_ski s k = Some d -> c_ski d = k.
Proof. intros H. unfold get_by_ski. destruct (indexes (p_by_ski s) k) as [|i r] eqn:E; [done|]. intros G. destruct (H k i) as (e & Ee & <-); [rewrite E; by left|]. congruence. Qed.
Lemma update_in' (s : pool) k d e : e ∈ p_certs (update_by_ski s k d) -> e ∈ p_certs s \/ e = d.
Proof. unfold update_by_ski. destruct (indexes _ k) as [|i r]; [by left|]. cbn [p_certs]. intros H. apply insert_in in H as [->|H]; auto. Qed.

Section pool.
Context {P : prims} (x : x509lib) (z : gzip) (c : caconf P) (cc : cconf P) (Hstd : std_ok x).
Context (ty k : Z) (d1 d2 : draw).
Notation step := (cfstep x z c cc).
Notation run := (cfrun x z c cc).
Notation y0 := (fc_init x c ty k d1 d2).

(** A certificate on its way from being signed. *)
Definition fstage (l : list cfev) (iss : list cert) (crt : cert) : Prop :=
  exists f y, f ∈ iss /\ same_subject crt f /\ c_exts crt = [mkext OID_CTNG false (encode_ctng y)] /\ ext_ok y /\ x_rid y = cert_rid f /\
    (forall i, i ∈ x_infos y -> info_from cc l i /\ poi_ski (li_poi i) = c_ski crt) /\ NoDup (map (λ i, g_signer (li_sth i)) (x_infos y)).

Lemma from_more l e i : info_from cc l i -> info_from cc (l ++ [e]) i.
Proof. intros [H1 H2]. split; [apply elem_of_app; by left|]. destruct H2 as [H2|(H2 & H3)]; [by left|right]. split; [apply elem_of_app; by left|done]. Qed.
Lemma fstage_more l e iss iss' crt : fstage l iss crt -> fstage (l ++ [e]) (iss ++ iss') crt.
Proof.
  intros (f & y & Hf & H1 & H2 & H3 & H4 & H5 & H6). exists f, y. split_and!; try done; [apply elem_of_app; by left|].
  intros i Hi. destruct (H5 i Hi). split; [by apply from_more|done].
Qed.
Lemma fstage_parse l iss crt : fstage l iss crt -> exists y, parse_ctng crt = y /\ c_exts crt = [mkext OID_CTNG false (encode_ctng y)] /\ ext_ok y.
Proof. intros (f & y & _ & _ & E & Hy & _). exists y. split_and!; [|done|done]. rewrite parse_ctng_last, E. cbn. by apply decode_encode. Qed.

Lemma fstage_update l iss crt i : fstage l iss crt -> info_from cc l i -> poi_ski (li_poi i) = c_ski crt -> info_ok i ->
  (forall e : ext, e ∈ c_exts (update_ctng crt i) -> (N.of_nat (len (e_value e)) < 2147483648)%N) -> fstage l iss (update_ctng crt i).
Proof.
  intros Hs Hfrom Hski Hi Hl. destruct (update_names crt i) as [_ Nk]. destruct (fstage_parse _ _ crt Hs) as (y1 & Ey & E0 & Hy0).
  destruct Hs as (o & y & Ho & Hss & E & Hy & Hr & Hx & Hn).
  unfold update_ctng in *. rewrite Ey in *. destruct (existsb _ _) eqn:Ex; [by exists o, y|].
  rewrite E in Hl |- *. cbn [map e_oid] in *. change (String.eqb OID_CTNG OID_CTNG) with true in *. cbn iota in *. cbn [e_critical] in *.
  cbn [c_exts set_exts] in Hl. specialize (Hl _ (elem_of_list_here _ _)). cbn [e_value] in Hl.
  assert (y1 = y) as ->.
  { rewrite <- Ey, parse_ctng_last, E. cbn. by apply decode_encode. }
  exists o, (mkctng (x_rid y) (x_infos y ++ [i])). split_and!; try done.
  - split_and!; [apply Hy|apply Hy| |].
    + cbn [x_infos]. apply Forall_app. split; [apply Hy|by constructor].
    + pose proof (octet_len (print_json (ctng_json (mkctng (x_rid y) (x_infos y ++ [i]))))) as H.
      unfold encode_ctng in Hl. change (String.length ?s) with (len s). lia.
  - cbn [x_infos]. intros j [Hj|Hj]%elem_of_app; [by apply Hx|]. apply elem_of_list_singleton in Hj as ->. done.
  - cbn [x_infos]. rewrite map_app. apply NoDup_app. split_and!; [done| |by apply NoDup_singleton].
    intros g Hg Hg'. apply elem_of_list_singleton in Hg' as ->. apply elem_of_list_fmap in Hg as (j & Ej & Hj).
    assert (existsb (λ j : loginfo, String.eqb (g_signer (li_sth j)) (g_signer (li_sth i))) (x_infos y) = true); [|congruence].
    apply existsb_exists. exists j. split; [by apply elem_of_list_In|]. by apply String.eqb_eq.
Qed.

Lemma fstage_precert l iss f : f ∈ iss -> (0 <= cert_rid f <= int64_max)%Z -> fstage l iss (precert_of f).
Proof.
  intros Hf Hr. exists f, (mkctng (cert_rid f) []). split_and!; try done; [by apply ext_ok_rid|intros i Hi; by apply elem_of_nil in Hi|constructor].
Qed.

(** ** The invariant *)
Definition goro_ok (l : list cfev) (iss : list cert) (a : cgoro) : Prop :=
  match a with
  | ABump _ _ _ crt _ => (0 <= cert_rid crt <= int64_max)%Z
  | PHead q => FProof q ∈ l
  | PCert i => info_from cc l i
  | PWrite k crt => fstage l iss crt /\ c_ski crt = k
  | _ => True
  end.
Record pool_inv (l : list cfev) (y : fca) (o : list cout) : Prop := {
  v_heads : forall k g, a_sths (fc_st y) !! k = Some g -> g_signer g = k /\ verify cc g = Accept /\ FHead g ∈ l;
  v_goros : forall a, a ∈ fc_go y -> goro_ok l (signed o) a;
  v_pool : forall d, d ∈ p_certs (a_pool (fc_st y)) -> fstage l (signed o) d;
  v_ski : ski_ok (a_pool (fc_st y));
  v_count : a_counter (fc_st y) = (1 + Z.of_nat (length (signed o)))%Z;
  v_rids : forall f, f ∈ signed o -> (0 <= cert_rid f <= int64_max)%Z
}.

Lemma goro_more l e iss iss' a : goro_ok l iss a -> goro_ok (l ++ [e]) (iss ++ iss') a.
Proof.
  destruct a; cbn [goro_ok]; try done; [intros; apply elem_of_app; by left|apply from_more|]. intros [H1 H2]. split; [by apply fstage_more|done].
Qed.

(** Events that are not steps. *)
Lemma inv_quiet l e y o s go : pool_inv l y o -> (forall a, a ∈ go -> a ∈ fc_go y \/ goro_ok (l ++ [e]) (signed o) a) -> a_pool s = a_pool (fc_st y) -> a_counter s = a_counter (fc_st y) ->
  (forall k g, a_sths s !! k = Some g -> a_sths (fc_st y) !! k = Some g \/ g_signer g = k /\ verify cc g = Accept /\ FHead g ∈ (l ++ [e])%list) -> pool_inv (l ++ [e]) (mkfc s go) (o ++ []).
Proof.
  intros [I1 I2 I3 I4 I5 I6] Hg Hp Hc Hh. rewrite app_nil_r. assert (En : signed o = (signed o ++ [])%list) by (by rewrite app_nil_r). split; cbn [fc_st fc_go].
  - intros j g G. destruct (Hh j g G) as [K|K]; [|done]. destruct (I1 j g K) as (? & ? & ?). split_and!; try done. apply elem_of_app. by left.
  - intros a Ha. destruct (Hg a Ha) as [K|K]; [|done]. rewrite En. apply goro_more. auto.
  - rewrite Hp. intros d Hd. rewrite En. apply fstage_more. auto.
  - by rewrite Hp.
  - congruence.
  - done.
Qed.

(** One step of a goroutine. *)
Lemma inv_gstep l y o n m ps a s a' o' : pool_inv l y o -> fc_go y !! n = Some a -> holds_signed c o a -> cgstep x z c (fc_st y) a m ps = (s, a', o') ->
  (Z.of_nat (length (signed o)) < int64_max)%Z ->
  (forall q pf, FProof q ∈ l -> poi_proof q = Some pf -> (pf_path pf <= 4294967295)%N) ->
  (forall k crt e, a' = Some (PWrite k crt) -> e ∈ c_exts crt -> (N.of_nat (String.length (e_value e)) < 2147483648)%N) ->
  pool_inv (l ++ [FRun n m ps]) (mkfc s (match a' with Some b => <[n := b]> (fc_go y) | None => delete n (fc_go y) end)) (o ++ o').
Proof using Hstd.
  intros [I1 I2 I3 I4 I5 I6] G Hh L Hmax Hpath Hsize. set (e := FRun n m ps). pose proof (I2 a (elem_of_list_lookup_2 _ _ _ G)) as Ia.
  assert (Q : a_sths s = a_sths (fc_st y) \/ a_sths s = ∅ -> a_counter s = a_counter (fc_st y) ->
     (forall d, d ∈ p_certs (a_pool s) -> fstage (l ++ [e]) (signed o) d) -> ski_ok (a_pool s) -> signed o' = [] ->
     match a' with Some b => goro_ok (l ++ [e]) (signed o) b | None => True end ->
     pool_inv (l ++ [e]) (mkfc s (match a' with Some b => <[n := b]> (fc_go y) | None => delete n (fc_go y) end)) (o ++ o')).
  { intros Es Ec Ep Ek Eo Eb. assert (En : signed (o ++ o') = signed o) by (by rewrite signed_app, Eo, app_nil_r). split; rewrite ?En; cbn [fc_st fc_go].
    - intros j g K. destruct Es as [Es|Es]; rewrite Es in K; [|by rewrite lookup_empty in K]. destruct (I1 j g K) as (? & ? & ?). split_and!; try done. apply elem_of_app. by left.
    - intros b Hb. destruct a' as [b'|]; [apply insert_in in Hb as [->|Hb]|apply delete_in in Hb]; [done|..]; rewrite <- (app_nil_r (signed o)); apply goro_more; auto.
    - done.
    - done.
    - congruence.
    - done. }
  assert (Old : forall d, d ∈ p_certs (a_pool (fc_st y)) -> fstage (l ++ [e]) (signed o) d) by (intros d Hd; rewrite <- (app_nil_r (signed o)); apply fstage_more; auto).
  assert (From : forall i, info_from cc l i -> info_from cc (l ++ [e]) i) by (intros; by apply from_more).
  destruct a as [ds|ds|off i cs [|d ds]|off i cs crt ds|[|crt cs]|[|g ls] crt cs| | |p|p g|p g fk|p g fk|p fk| | |q|i|k' crt| |n']; cbn [cgstep goro_ok holds_signed] in *.
  - injection L as <- <- <-. apply Q; try done. by right.
  - injection L as <- <- <-. apply Q; try done. by left.
  - injection L as <- <- <-. apply Q; try done. by left.
  - injection L as <- <- <-. apply Q; try done; [by left|]. cbn [goro_ok]. unfold cert_rid. erewrite parse_signed by done.
    rewrite decode_encode; [cbn [x_rid]; lia|]. apply ext_ok_rid. lia.
  - injection L as <- <- <-. clear Q. assert (En : signed (o ++ [CSigned crt]) = (signed o ++ [crt])%list) by (by rewrite signed_app). split; rewrite ?En; cbn [fc_st fc_go set_a_counter a_sths a_pool a_counter].
    + intros j g K. destruct (I1 j g K) as (? & ? & ?). split_and!; try done. apply elem_of_app. by left.
    + intros b Hb. apply insert_in in Hb as [->|Hb]; [done|]. apply goro_more. auto.
    + intros d Hd. apply fstage_more. auto.
    + done.
    + rewrite app_length. cbn. lia.
    + intros f [Hf|Hf]%elem_of_app; [by apply I6|]. by apply elem_of_list_singleton in Hf as ->.
  - injection L as <- <- <-. apply Q; try done. by left.
  - injection L as <- <- <-. apply Q; try done; [by left| |by apply ski_add].
    cbn [set_a_pool a_pool]. intros d Hd. apply add_in in Hd as [Hd| ->]; [by apply Old|]. assert (crt ∈ signed o) by (apply Hh; by left). apply fstage_precert; [done|by apply I6].
  - injection L as <- <- <-. apply Q; try done. by left.
  - injection L as <- <- <-. apply Q; try done. by left.
  - injection L as <- <- <-. apply Q; try done. by left.
  - injection L as <- <- <-. apply Q; try done. by left.
  - injection L as <- <- <-. apply Q; try done. by left.
  - injection L as <- <- <-. apply Q; try done. by left.
  - injection L as <- <- <-. apply Q; try done. by left.
  - injection L as <- <- <-. apply Q; try done. by left.
  - injection L as <- <- <-. apply Q; try done. by left.
  - injection L as <- <- <-. apply Q; try done. by left.
  - injection L as <- <- <-. apply Q; try done; [by left| |apply ski_new]. cbn [set_a_pool a_pool new_pool p_certs]. intros d Hd. by apply elem_of_nil in Hd.
  - injection L as <- <- <-. apply Q; try done; [by left|]. cbn [goro_ok]. apply From. split; [done|]. cbn [li_sth li_poi]. unfold Logger.obj_at.
    destruct (a_sths (fc_st y) !! poi_logger q) as [g|] eqn:E; [right|by left]. cbn. destruct (I1 _ _ E) as (? & ? & ?). done.
  - destruct (get_by_ski (a_pool (fc_st y)) (poi_ski (li_poi i))) as [crt|] eqn:E.
    + injection L as <- <- <-. apply Q; try done; [by left|]. cbn [goro_ok]. assert (K := ski_get _ _ _ I4 E). split.
      * apply fstage_update; [apply Old; by eapply get_in|by apply From|done| |].
        -- intros pf. apply Hpath, Ia.
        -- intros e' He'. eapply (Hsize _ _ e'); [reflexivity|exact He'].
      * by rewrite (proj2 (update_names crt i)).
    + injection L as <- <- <-. apply Q; try done. by left.
  - injection L as <- <- <-. destruct Ia as [Ia Ik]. apply Q; try done; [by left| |by apply ski_update].
    cbn [set_a_pool a_pool]. intros d Hd. apply update_in' in Hd as [Hd| ->]; [by apply Old|]. rewrite <- (app_nil_r (signed o)). by apply fstage_more.
  - injection L as <- <- <-. apply Q; try done; destruct (Z.eqb _ 0); try done; by left.
  - injection L as <- <- <-. apply Q; try done. by left.
Qed.

Lemma inv_run l : fine_sizes x z c cc y0 l -> (Z.of_nat (length (signed (snd (run y0 l)))) < int64_max)%Z -> pool_inv l (fst (run y0 l)) (snd (run y0 l)).
Proof using Hstd.
  induction l as [|e l IH] using rev_ind; intros [Hs1 Hs2] Hn.
  - split; cbn [fst snd cfrun].
    + intros j g G. cbn in G. by rewrite lookup_empty in G.
    + intros a Ha. by apply elem_of_nil in Ha.
    + intros d Hd. by apply elem_of_nil in Hd.
    + apply ski_new.
    + done.
    + intros f Hf. by apply elem_of_nil in Hf.
  - assert (Hs : fine_sizes x z c cc y0 l).
    { split; [intros l1 l2 crt e' -> K1 K2; eapply (Hs1 l1 (l2 ++ [e])%list); [by rewrite app_assoc|done..]|]. intros q pf Hq. apply Hs2. apply elem_of_app. by left. }
    pose proof (posted_run x z c cc y0 l eq_refl) as [Hh _]. specialize (IH Hs). rewrite run_snoc in Hn |- *. cbn [fst snd] in *.
    assert (Sz := λ crt e', Hs1 (l ++ [e])%list [] crt e' (eq_sym (app_nil_r _))). rewrite run_snoc in Sz. cbn [fst] in Sz. clear Hs1.
    destruct (run y0 l) as [y o]. cbn [fst snd] in *. rewrite signed_app, app_length in Hn. assert (Hn' : (Z.of_nat (length (signed o)) < int64_max)%Z) by lia. specialize (IH Hn').
    assert (In : e ∈ (l ++ [e])%list) by (apply elem_of_app; right; by apply elem_of_list_singleton).
    destruct e as [ds|g|q| |i|n m ps]; cbn [cfstep fst snd].
    + apply (inv_quiet l _ y); try done; [|by left]. intros a [Ha|Ha]%elem_of_app; [by left|right]. by apply elem_of_list_singleton in Ha as ->.
    + destruct (sth_frame cc (fc_st y) g) as (_ & _ & Ec & _ & _ & _ & _ & _ & _ & _ & Ep). apply (inv_quiet l _ y); try done; [by left|].
      unfold receive_sth. destruct (verify cc g) eqn:V; cbn [fst]; [|by left..]. cbn [set_a_sths a_sths]. intros j h [(<- & <-)|(_ & K)]%lookup_insert_Some; [by right|by left].
    + apply (inv_quiet l _ y); try done; [|by left]. intros a [Ha|Ha]%elem_of_app; [by left|right]. by apply elem_of_list_singleton in Ha as ->.
    + apply (inv_quiet l _ y); try done; [|by left]. intros a [Ha|Ha]%elem_of_app; [by left|right]. by apply elem_of_list_singleton in Ha as ->.
    + apply (inv_quiet l _ y); try done; by left.
    + cbn [cfstep] in Sz. destruct (fc_go y !! n) as [a|] eqn:G.
      2: { destruct y as [s go]. apply (inv_quiet l _ (mkfc s go)); try done; by left. }
      destruct (cgstep x z c (fc_st y) a m ps) as [[s a'] o'] eqn:L. cbn [fst snd] in *.
      eapply inv_gstep; [exact IH|exact G|by apply Hh, (elem_of_list_lookup_2 _ _ _ G)|exact L|done| |].
      * intros q pf Hq. apply Hs2. apply elem_of_app. by left.
      * intros k' crt e' -> He'. eapply (Sz crt e'); [|exact He']. right. exists k'. cbn [fc_go]. eapply elem_of_list_lookup_2, list_lookup_insert. by eapply lookup_lt_Some.
Qed.

Lemma pool_from l crt : fine_sizes x z c cc y0 l -> (Z.of_nat (length (signed (snd (run y0 l)))) < int64_max)%Z ->
  crt ∈ get_certs (a_pool (fc_st (fst (run y0 l)))) ->
  (exists f, f ∈ signed (snd (run y0 l)) /\ same_subject crt f /\ cert_rid crt = cert_rid f) /\
  (forall i, i ∈ x_infos (parse_ctng crt) -> info_from cc l i /\ poi_ski (li_poi i) = c_ski crt) /\
  NoDup (map (λ i, g_signer (li_sth i)) (x_infos (parse_ctng crt))).
Proof using Hstd.
  intros Hs Hn Hc. destruct (v_pool _ _ _ (inv_run l Hs Hn) crt Hc) as (f & y & Hf & Hsub & E & Hy & Hr & Hi & Hd).
  assert (Ep : parse_ctng crt = y) by (rewrite parse_ctng_last, E; cbn; by apply decode_encode). split_and!.
  - exists f. split_and!; try done. unfold cert_rid at 1. by rewrite Ep.
  - by rewrite Ep.
  - by rewrite Ep.
Qed.
End pool.
