(** Entries of certificates stay there (FineCA.v). *)
From Verif Require Import Bytes Hex Base64 Json Types Crypto Verify Merkle Cert CertPool CTngExt Clock Bitset Revocation CA FineCA
  SpecCodec SpecCert SpecCA SpecFineCA SpecFineKept CertFacts ExtFacts CAFacts CARidFacts CAPoiFacts FineCAFacts FineCAMore FineCAPool.
Open Scope string_scope.

Lemma get_add' s d k e : ski_ok s -> get_by_ski s k = Some e -> get_by_ski (add_cert s d) k = Some e.
Proof.
  intros _. unfold get_by_ski, add_cert. destruct (contains s d); [done|]. cbn [p_by_ski p_certs]. destruct (indexes (p_by_ski s) k) as [|i r] eqn:E; [done|]. intros Hi.
  destruct (is_empty (c_ski d)); [rewrite E; by apply lookup_app_l_Some|]. rewrite indexes_add, E. cbn. by apply lookup_app_l_Some.
Qed.
Lemma get_update' s k d j e : ski_ok s -> get_by_ski s j = Some e -> get_by_ski (update_by_ski s k d) j = Some e \/ j = k /\ get_by_ski (update_by_ski s k d) j = Some d.
Proof.
  intros Hs. unfold get_by_ski, update_by_ski. destruct (indexes (p_by_ski s) k) as [|i r] eqn:E; [by left|]. cbn [p_by_ski p_certs].
  destruct (indexes (p_by_ski s) j) as [|i' r'] eqn:E'; [done|]. intros Hi. destruct (decide (i' = i)) as [->|N].
  - right. split; [|rewrite list_lookup_insert by (by eapply lookup_lt_Some); done].
    destruct (Hs k i) as (a & Ea & <-); [rewrite E; by left|]. destruct (Hs j i) as (b & Eb & <-); [rewrite E'; by left|]. congruence.
  - left. by rewrite list_lookup_insert_ne.
Qed.

Section kept.
Context {P : prims} (x : x509lib) (z : gzip) (c : caconf P) (cc : cconf P) (Hstd : std_ok x).
Context (ty k0 : Z) (d1 d2 : draw).
Notation run := (cfrun x z c cc).
Notation y0 := (fc_init x c ty k0 d1 d2).

Lemma update_keeps l iss crt i : fstage cc l iss crt -> info_ok i ->
  (forall e : ext, e ∈ c_exts (update_ctng crt i) -> (N.of_nat (len (e_value e)) < 2147483648)%N) ->
  parse_ctng (update_ctng crt i) = parse_ctng crt /\ (exists j, j ∈ x_infos (parse_ctng crt) /\ g_signer (li_sth j) = g_signer (li_sth i)) \/ x_infos (parse_ctng (update_ctng crt i)) = (x_infos (parse_ctng crt) ++ [i])%list.
Proof.
  intros Hs Hi Hl. destruct (fstage_parse _ _ _ crt Hs) as (y & Ey & E & Hy).
  unfold update_ctng in *. rewrite Ey in *. destruct (existsb _ _) eqn:Ex.
  { left. split; [done|]. apply existsb_exists in Ex as (j & Hj & Ej). exists j. split; [by apply elem_of_list_In|by apply String.eqb_eq]. }
  right.
  rewrite E in Hl |- *. cbn [map e_oid] in *. change (String.eqb OID_CTNG OID_CTNG) with true in *. cbn iota in *. cbn [e_critical] in *.
  cbn [c_exts set_exts] in Hl. specialize (Hl _ (elem_of_list_here _ _)). cbn [e_value] in Hl.
  rewrite parse_ctng_last. cbn [c_exts set_exts List.filter e_oid]. unfold is_ctng. cbn [e_oid]. change (String.eqb OID_CTNG OID_CTNG) with true. cbn [last e_value].
  rewrite decode_encode; [done|]. split_and!; [apply Hy| | |].
  - apply Hy.
  - cbn [x_infos]. apply Forall_app. split; [apply Hy|by constructor].
  - pose proof (octet_len (print_json (ctng_json (mkctng (x_rid y) (x_infos y ++ [i]))))) as H.
    unfold encode_ctng in Hl. change (String.length ?s) with (len s). lia.
Qed.

Definition keeps (y : fca) (k : string) (i : loginfo) : Prop :=
  entered y k i /\ forall crt, PWrite k crt ∈ fc_go y -> i ∈ x_infos (parse_ctng crt).

Lemma kept l1 l2 k i : let y := fst (run y0 l1) in fine_sizes x z c cc y0 (l1 ++ l2) -> (Z.of_nat (length (signed (snd (run y0 (l1 ++ l2))))) < int64_max)%Z ->
  entered y k i -> (forall crt, PWrite k crt ∈ fc_go y -> i ∈ x_infos (parse_ctng crt)) -> no_clear x z c cc y l2 ->
  keeps (fst (run y0 (l1 ++ l2))) k i.
Proof using Hstd.
  intros y. induction l2 as [|e l2 IH] using rev_ind; intros Hs Hn Ht Hp Hc; [rewrite app_nil_r; by split|]. rewrite (assoc_L app) in Hs, Hn |- *.
  assert (Hs' : fine_sizes x z c cc y0 (l1 ++ l2)).
  { destruct Hs as [Hs1 Hs2]. split; [intros a b crt e' E K1 K2; eapply (Hs1 a (b ++ [e])%list); [by rewrite E, app_assoc|done..]|]. intros q pf Hq. apply Hs2. apply elem_of_app. by left. }
  pose proof Hn as Hn'. rewrite run_snoc in Hn'. cbn [snd] in Hn'. rewrite signed_app, app_length in Hn'.
  assert (Hc' : no_clear x z c cc y l2) by (intros a n m ps b E; eapply (Hc a n m ps (b ++ [e])%list); by rewrite E, <- app_assoc).
  specialize (IH Hs' ltac:(lia) Ht Hp Hc'). assert (I := inv_run x z c cc Hstd ty k0 d1 d2 (l1 ++ l2) Hs' ltac:(lia)). clear Hn Hn' Hc'.
  assert (Hlast : forall n m ps, e = FRun n m ps -> fc_go (fst (run y0 (l1 ++ l2))) !! n <> Some AClear).
  { intros n m ps ->. specialize (Hc l2 n m ps [] eq_refl). rewrite run_app. subst y. destruct (run y0 l1) as [y o]. cbn [fst] in *. by destruct (run y l2). }
  assert (Sz := λ crt e', proj1 Hs (l1 ++ l2 ++ [e])%list [] crt e'). rewrite app_nil_r, <- app_assoc in Sz. specialize (λ crt e', Sz crt e' eq_refl). rewrite (assoc_L app), run_snoc in Sz. cbn [fst] in Sz.
  assert (Hpath : forall q pf, FProof q ∈ (l1 ++ l2)%list -> poi_proof q = Some pf -> (pf_path pf <= 4294967295)%N) by (intros q pf Hq; apply (proj2 Hs); apply elem_of_app; by left).
  rewrite run_snoc. cbn [fst]. clear Hs Hs' Hc Ht Hp. destruct (run y0 (l1 ++ l2)) as [s o]. cbn [fst snd] in *. clear y. rename s into y.
  destruct IH as [[crt [Hg Hin]] Hw].
  assert (Q : forall s' go, a_pool s' = a_pool (fc_st y) -> (forall crt, PWrite k crt ∈ go -> PWrite k crt ∈ fc_go y) -> keeps (mkfc s' go) k i).
  { intros s' go Ep Hgo. split; [exists crt; cbn [fc_st]; by rewrite Ep|]. cbn [fc_go]. auto. }
  destruct e as [ds|g|q| |j|n m ps]; cbn [cfstep fst].
  - apply Q; [done|]. intros d [Hd|Hd]%elem_of_app; [done|]. by apply elem_of_list_singleton in Hd.
  - apply Q; [|done]. destruct (sth_frame cc (fc_st y) g) as (_ & _ & _ & _ & _ & _ & _ & _ & _ & _ & Ep). exact Ep.
  - apply Q; [done|]. intros d [Hd|Hd]%elem_of_app; [done|]. by apply elem_of_list_singleton in Hd.
  - apply Q; [done|]. intros d [Hd|Hd]%elem_of_app; [done|]. by apply elem_of_list_singleton in Hd.
  - by apply Q.
  - cbn [cfstep] in Sz. destruct (fc_go y !! n) as [a|] eqn:G; [|by split; [exists crt|]].
    specialize (Hlast n m ps eq_refl). rewrite G in Hlast. pose proof (v_goros _ _ _ _ I a (elem_of_list_lookup_2 _ _ _ G)) as Ia.
    assert (R : forall s' a', a_pool s' = a_pool (fc_st y) -> (forall k' d, a' <> Some (PWrite k' d)) ->
       keeps (mkfc s' (match a' with Some b => <[n := b]> (fc_go y) | None => delete n (fc_go y) end)) k i).
    { intros s' a' Ep Ha. apply Q; [done|]. intros d Hd. destruct a' as [b|]; [apply insert_in in Hd as [Hd|Hd]; [by destruct (Ha k d); f_equal|done]|by apply delete_in in Hd]. }
    destruct (cgstep x z c (fc_st y) a m ps) as [[s' a'] o'] eqn:L. cbn [fst] in *.
    destruct a as [ds|ds|off i' cs [|d ds]|off i' cs d ds|[|d cs]|[|g ls] d cs| | |p|p g|p g fk|p g fk|p fk| | |q|i'|k' d| |n']; cbn [cgstep goro_ok] in L, Ia;
      try (apply R; [by injection L as <- <- <-|intros ??; by injection L as <- <- <-]); try done.
    + injection L as <- <- <-. split.
      * exists crt. split; [|done]. cbn [fc_st set_a_pool a_pool]. apply get_add'; [apply I|done].
      * cbn [fc_go]. intros d' Hd. apply insert_in in Hd as [Hd|Hd]; [done|auto].
    + destruct (get_by_ski (a_pool (fc_st y)) (poi_ski (li_poi i'))) as [d|] eqn:E; [|apply R; [by injection L as <- <- <-|intros ??; by injection L as <- <- <-]]. injection L as <- <- <-. split; [by exists crt|].
      cbn [fc_go]. intros d' Hd. apply insert_in in Hd as [Hd|Hd]; [|auto]. injection Hd as -> ->. rewrite Hg in E. injection E as <-.
      destruct (update_keeps _ _ crt i' (v_pool _ _ _ _ I crt (get_in _ _ _ Hg))) as [[-> _] | ->]; [| |done|apply elem_of_app; by left].
      * intros pf. apply Hpath, Ia.
      * intros e' He'. eapply (Sz _ e'); [|exact He']. right. eexists. cbn [fc_go]. eapply elem_of_list_lookup_2, list_lookup_insert. by eapply lookup_lt_Some.
    + injection L as <- <- <-. split; [|cbn [fc_go]; intros d' Hd; apply delete_in in Hd; auto].
      unfold entered. cbn [fc_st set_a_pool a_pool]. destruct (get_update' _ k' d k crt (v_ski _ _ _ _ I) Hg) as [E|[<- E]]; [by exists crt|].
      exists d. split; [done|]. apply Hw. by eapply elem_of_list_lookup_2.
    + injection L as <- <- <-. apply Q; [by destruct (Z.eqb _ 0)|]. intros d Hd. apply insert_in in Hd as [Hd|Hd]; done.
Qed.
Lemma kept_entry l1 l2 k i : let y := fst (run y0 l1) in fine_sizes x z c cc y0 (l1 ++ l2) -> (Z.of_nat (length (signed (snd (run y0 (l1 ++ l2))))) < int64_max)%Z ->
  entered y k i -> (forall crt, PWrite k crt ∈ fc_go y -> i ∈ x_infos (parse_ctng crt)) -> no_clear x z c cc y l2 ->
  entered (fst (run y0 (l1 ++ l2))) k i.
Proof using Hstd. intros y H1 H2 H3 H4 H5. by apply (kept l1 l2 k i). Qed.

Lemma filed l n q crt m1 p1 m2 p2 m3 p3 : let y := fst (run y0 l) in let l' := [FRun n m1 p1; FRun n m2 p2; FRun n m3 p3] in let g := Logger.obj_at (a_sths (fc_st y)) (poi_logger q) in
  fine_sizes x z c cc y0 (l ++ l') -> (Z.of_nat (length (signed (snd (run y0 l)))) < int64_max)%Z ->
  fc_go y !! n = Some (PHead q) -> get_by_ski (a_pool (fc_st y)) (poi_ski q) = Some crt ->
  (exists j, j ∈ x_infos (parse_ctng crt) /\ g_signer (li_sth j) = g_signer g) \/ entered (fst (run y0 (l ++ l'))) (poi_ski q) (mkloginfo g q).
Proof using Hstd.
  intros y l' g Hs Hn G Hg.
  assert (Hs' : fine_sizes x z c cc y0 l).
  { destruct Hs as [Hs1 Hs2]. split; [intros a b d e E K1 K2; eapply (Hs1 a (b ++ l')%list); [by rewrite E, app_assoc|done..]|]. intros q' pf Hq. apply Hs2. apply elem_of_app. by left. }
  assert (I := inv_run x z c cc Hstd ty k0 d1 d2 l Hs' Hn). pose proof (v_goros _ _ _ _ I _ (elem_of_list_lookup_2 _ _ _ G)) as Iq. cbn [goro_ok] in Iq.
  assert (Hl : n < length (fc_go y)) by (by eapply lookup_lt_Some).
  assert (S1 : fst (cfstep x z c cc y (FRun n m1 p1)) = mkfc (fc_st y) (<[n := PCert (mkloginfo g q)]> (fc_go y))) by (cbn [cfstep]; by rewrite G).
  assert (S2 : fst (cfstep x z c cc (mkfc (fc_st y) (<[n := PCert (mkloginfo g q)]> (fc_go y))) (FRun n m2 p2)) = mkfc (fc_st y) (<[n := PWrite (poi_ski q) (update_ctng crt (mkloginfo g q))]> (fc_go y))).
  { cbn [cfstep fc_go]. rewrite list_lookup_insert by done. cbn [cgstep fc_st li_poi]. rewrite Hg. cbn [fst]. by rewrite list_insert_insert. }
  assert (E2 : fst (run y0 ((l ++ [FRun n m1 p1]) ++ [FRun n m2 p2])) = mkfc (fc_st y) (<[n := PWrite (poi_ski q) (update_ctng crt (mkloginfo g q))]> (fc_go y))).
  { rewrite run_snoc. cbn [fst]. rewrite run_snoc. cbn [fst]. fold y. by rewrite S1, S2. }
  destruct (update_keeps _ _ crt (mkloginfo g q) (v_pool _ _ _ _ I crt (get_in _ _ _ Hg))) as [[_ Hj] | K]; [| |by left|right].
  - intros pf. apply (proj2 Hs). apply elem_of_app. by left.
  - intros e' He'. eapply (proj1 Hs ((l ++ [FRun n m1 p1]) ++ [FRun n m2 p2])%list [FRun n m3 p3] _ e'); [by rewrite <- !app_assoc| |exact He'].
    right. rewrite E2. eexists. cbn [fc_go]. by eapply elem_of_list_lookup_2, list_lookup_insert.
  - replace (l ++ l')%list with (((l ++ [FRun n m1 p1]) ++ [FRun n m2 p2]) ++ [FRun n m3 p3])%list by (by rewrite <- !app_assoc).
    rewrite run_snoc. cbn [fst]. rewrite E2. cbn [cfstep fc_go]. rewrite list_lookup_insert by done. cbn [cgstep fst fc_st].
    exists (update_ctng crt (mkloginfo g q)). split; [|rewrite K; apply elem_of_app; right; by left].
    cbn [fc_st set_a_pool a_pool]. revert Hg. unfold get_by_ski, update_by_ski. destruct (indexes _ _) as [|i r] eqn:E; [done|]. cbn [p_by_ski p_certs]. rewrite E. intros Hi. apply list_lookup_insert. by eapply lookup_lt_Some.
Qed.
End kept.
