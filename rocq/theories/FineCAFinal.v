(** Final certificates (FineCA.v). *)
From Verif Require Import Bytes Hex Base64 Json Types Crypto Verify Merkle Cert CertPool CTngExt Clock Bitset Revocation CA FineCA
  SpecCodec SpecCert SpecCA SpecFineCA SpecSigned CertFacts ExtFacts CAFacts CARidFacts CAPoiFacts FineCAFacts FineCAMore FineCAPool FineCASigned.
Open Scope string_scope.

Section final.
Context {P : prims} (x : x509lib) (z : gzip) (c : caconf P) (cc : cconf P) (Hstd : std_ok x).
Context (ty k : Z) (d1 d2 : draw).
Notation step := (cfstep x z c cc).
Notation run := (cfrun x z c cc).
Notation y0 := (fc_init x c ty k d1 d2).

Definition named (f : cert) : Prop := c_subject f = xl_name x (c_subject_cn f) /\ c_ski f = h_sha256 P (c_pub f).
Definition named_goro (a : cgoro) : Prop := match a with ABump _ _ _ crt _ => named crt | _ => True end.

Lemma named_gstep s a m ps : named_goro a -> let '(s', a', o) := cgstep x z c s a m ps in
  match a' with Some b => named_goro b | None => True end /\ (forall f, f ∈ signed o -> named f).
Proof.
  intros Ha. assert (Hn : forall f, f ∈ @nil cert -> named f) by (intros f Hf; by apply elem_of_nil in Hf).
  destruct a as [ds|ds|off i cs [|d ds]|off i cs crt ds|[|crt cs]|[|g ls] crt cs| | |p|p g|p g fk|p g fk|p fk| | |q|i|k' crt| |n']; cbn [cgstep named_goro] in *; try done.
  - split; [done|]. intros f Hf. by apply elem_of_list_singleton in Hf as ->.
  - destruct (get_by_ski _ _) as [crt|] eqn:E; done.
Qed.
Lemma named_run l : (forall a, a ∈ fc_go (fst (run y0 l)) -> named_goro a) /\ (forall f, f ∈ signed (snd (run y0 l)) -> named f).
Proof.
  induction l as [|e l IH] using rev_ind; [split; intros a Ha; by apply elem_of_nil in Ha|].
  rewrite run_snoc. cbn [fst snd]. destruct (run y0 l) as [y o]. cbn [fst snd] in *. destruct IH as (I1 & I3).
  assert (Hn : forall f, f ∈ signed (o ++ []) -> named f) by (by rewrite app_nil_r).
  destruct e as [ds|g|q| |i|n m ps]; cbn [cfstep fst snd]; try (by split).
  - split; [|done]. cbn [fc_go]. intros a [Ha|Ha]%elem_of_app; [by apply I1|]. by apply elem_of_list_singleton in Ha as ->.
  - split; [|done]. cbn [fc_go]. intros a [Ha|Ha]%elem_of_app; [by apply I1|]. by apply elem_of_list_singleton in Ha as ->.
  - split; [|done]. cbn [fc_go]. intros a [Ha|Ha]%elem_of_app; [by apply I1|]. by apply elem_of_list_singleton in Ha as ->.
  - destruct (fc_go y !! n) as [a|] eqn:G; [|done]. pose proof (named_gstep (fc_st y) a m ps (I1 a (elem_of_list_lookup_2 _ _ _ G))) as K.
    destruct (cgstep x z c (fc_st y) a m ps) as [[s a'] o']. destruct K as (K1 & K3). cbn [fst snd]. split.
    + cbn [fc_go]. intros b Hb. destruct a' as [b'|]; [apply insert_in in Hb as [->|Hb]|apply delete_in in Hb]; auto.
    + intros f. rewrite signed_app. intros [Hf|Hf]%elem_of_app; auto.
Qed.

Lemma final_from l f : fine_sizes x z c cc y0 l -> (Z.of_nat (length (signed (snd (run y0 l)))) < int64_max)%Z ->
  f ∈ sign_all x c (fc_st (fst (run y0 l))) ->
  (exists o, o ∈ signed (snd (run y0 l)) /\ same_subject f o /\ cert_rid f = cert_rid o) /\
  (forall i, i ∈ x_infos (parse_ctng f) -> info_from cc l i /\ poi_ski (li_poi i) = c_ski f) /\
  NoDup (map (λ i, g_signer (li_sth i)) (x_infos (parse_ctng f))).
Proof using Hstd.
  intros Hs Hn Hf. unfold sign_all in Hf. apply elem_of_list_fmap in Hf as (d & -> & Hd).
  destruct (pool_from x z c cc Hstd ty k d1 d2 l d Hs Hn Hd) as ((o & Ho & Hsub & Hr) & Hi & Hu).
  pose proof (v_pool _ _ _ _ (inv_run x z c cc Hstd ty k d1 d2 l Hs Hn) d Hd) as Hst.
  destruct (fstage_parse _ _ _ _ Hst) as (y & Ey & _ & Hy).
  destruct (signed_run x z c cc Hstd ty k d1 d2 l) as (_ & Hx & _). specialize (Hx d Hd).
  destruct (proj2 (named_run l) o Ho) as [N2 N3]. destruct Hsub as (S1 & S2 & S3 & S4).
  set (f := sign_certificate x (cac_key c) (update_for_signing d) (a_root (fc_st (fst (run y0 l)))) (c_pub (update_for_signing d))).
  assert (Ep : parse_ctng f = parse_ctng d).
  { unfold f. erewrite (parse_signed x Hstd); [|cbn [update_for_signing set_extra c_extra]; rewrite Hx; reflexivity]. rewrite Ey. by apply decode_encode. }
  assert (Ek : c_ski f = c_ski d).
  { unfold f. cbn [sign_certificate c_ski update_for_signing set_extra c_pub]. destruct (is_empty (c_ski d)) eqn:Ee; [|done]. rewrite S3. by rewrite <- N3. }
  split_and!.
  - exists o. split_and!; [done| |unfold cert_rid at 1; rewrite Ep; exact Hr].
    unfold same_subject. rewrite Ek. unfold f. cbn [sign_certificate c_subject c_subject_cn c_pub update_for_signing set_extra]. unfold name_of. cbn [c_subject c_subject_cn update_for_signing set_extra].
    rewrite S1, S2, S3. split_and!; try done. destruct (is_empty (c_subject o)) eqn:Ee; [|done]. by rewrite N2.
  - rewrite Ep, Ek. done.
  - by rewrite Ep.
Qed.
Lemma contents_from l f : fine_sizes x z c cc y0 l -> (Z.of_nat (length (signed (snd (run y0 l)))) < int64_max)%Z ->
  f ∈ get_certs (a_pool (fc_st (fst (run y0 l)))) \/ f ∈ sign_all x c (fc_st (fst (run y0 l))) ->
  (exists o, o ∈ signed (snd (run y0 l)) /\ same_subject f o /\ cert_rid f = cert_rid o) /\
  (forall i, i ∈ x_infos (parse_ctng f) -> info_from cc l i /\ poi_ski (li_poi i) = c_ski f) /\
  NoDup (map (λ i, g_signer (li_sth i)) (x_infos (parse_ctng f))).
Proof using Hstd. intros Hs Hn [H|H]; [by apply pool_from|by apply final_from]. Qed.
End final.
