(** The certificates a CA signs (FineCA.v). *)
From Verif Require Import Bytes Hex Base64 Json Types Crypto Verify Merkle Cert CertPool CTngExt Clock Bitset Revocation CA FineCA
  SpecCodec SpecCert SpecCA SpecFineCA SpecSigned CertFacts ExtFacts CAFacts CARidFacts CAPoiFacts FineCAFacts FineCAMore FineCAPool.
Open Scope string_scope.

Section signed.
Context {P : prims} (x : x509lib) (z : gzip) (c : caconf P) (cc : cconf P) (Hstd : std_ok x).
Context (ty k : Z) (d1 d2 : draw).
Notation step := (cfstep x z c cc).
Notation run := (cfrun x z c cc).
Notation y0 := (fc_init x c ty k d1 d2).

Lemma sign_well tmpl parent pub v : c_extra tmpl = [mkext OID_CTNG false v] -> c_subject_cn parent = cac_signer c -> well_signed x c (sign_certificate x (cac_key c) tmpl parent pub).
Proof using Hstd.
  intros He Hp. split_and!; try done. exists v. unfold sign_certificate. cbn [c_exts set_exts]. rewrite He, List.filter_app, (filter_std x _ Hstd). done.
Qed.
Lemma root_well : well_signed x c (a_root (fc_st y0)) /\ c_subject_cn (a_root (fc_st y0)) = cac_signer c.
Proof using Hstd. split; [|done]. cbn [fc_init fc_st ca_init generate_root a_root]. by eapply sign_well. Qed.
Lemma run_root l : a_root (fc_st (fst (run y0 l))) = a_root (fc_st y0).
Proof. induction l as [|e l IH] using rev_ind; [done|]. rewrite run_snoc. cbn [fst]. rewrite (proj2 (step_frame _ _ _ _ _ _)). done. Qed.

(** Nothing is queued for signing in the pool. *)
Definition signed_goro (a : cgoro) : Prop := match a with ABump _ _ _ crt _ => well_signed x c crt | PWrite _ crt => c_extra crt = [] | _ => True end.
Definition signed_inv (y : fca) (o : list cout) : Prop :=
  (forall a, a ∈ fc_go y -> signed_goro a) /\ (forall d, d ∈ p_certs (a_pool (fc_st y)) -> c_extra d = []) /\ (forall f, f ∈ signed o -> well_signed x c f).

Lemma update_extra crt i : c_extra (update_ctng crt i) = c_extra crt.
Proof. unfold update_ctng. by destruct (existsb _ _). Qed.

Lemma signed_gstep s a m ps : c_subject_cn (a_root s) = cac_signer c -> signed_goro a -> (forall d, d ∈ p_certs (a_pool s) -> c_extra d = []) ->
  let '(s', a', o) := cgstep x z c s a m ps in
  match a' with Some b => signed_goro b | None => True end /\ (forall d, d ∈ p_certs (a_pool s') -> c_extra d = []) /\ (forall f, f ∈ signed o -> well_signed x c f).
Proof using Hstd.
  intros Hr Ha Hp. assert (Hn : forall f, f ∈ @nil cert -> well_signed x c f) by (intros f Hf; by apply elem_of_nil in Hf).
  destruct a as [ds|ds|off i cs [|d ds]|off i cs crt ds|[|crt cs]|[|g ls] crt cs| | |p|p g|p g fk|p g fk|p fk| | |q|i|k' crt| |n']; cbn [cgstep signed_goro] in *; try done.
  - split_and!; try done. by eapply sign_well.
  - split_and!; try done. intros f Hf. by apply elem_of_list_singleton in Hf as ->.
  - split_and!; try done. cbn [set_a_pool a_pool]. intros d Hd. apply add_in in Hd as [Hd| ->]; [by apply Hp|done].
  - split_and!; try done. intros d Hd. by apply elem_of_nil in Hd.
  - destruct (get_by_ski _ _) as [crt|] eqn:E; [|done]. split_and!; try done. cbn [signed_goro]. rewrite update_extra. apply Hp. by eapply get_in.
  - split_and!; try done. cbn [set_a_pool a_pool]. intros d Hd. apply update_in' in Hd as [Hd| ->]; [by apply Hp|done].
  - destruct (Z.eqb _ 0); done.
Qed.

Lemma signed_run l : signed_inv (fst (run y0 l)) (snd (run y0 l)).
Proof using Hstd.
  induction l as [|e l IH] using rev_ind; [split_and!; intros a Ha; by apply elem_of_nil in Ha|].
  pose proof (run_root l) as Hr. rewrite run_snoc. cbn [fst snd]. destruct (run y0 l) as [y o]. cbn [fst snd] in *. destruct IH as (I1 & I2 & I3).
  assert (Hn : forall f, f ∈ signed (o ++ []) -> well_signed x c f) by (by rewrite app_nil_r).
  destruct e as [ds|g|q| |i|n m ps]; cbn [cfstep fst snd].
  - split_and!; try done. cbn [fc_go]. intros a [Ha|Ha]%elem_of_app; [by apply I1|]. by apply elem_of_list_singleton in Ha as ->.
  - split_and!; try done. destruct (sth_frame cc (fc_st y) g) as (_ & _ & _ & _ & _ & _ & _ & _ & _ & _ & Ep). cbn zeta in Ep. cbn [fc_st]. by rewrite Ep.
  - split_and!; try done. cbn [fc_go]. intros a [Ha|Ha]%elem_of_app; [by apply I1|]. by apply elem_of_list_singleton in Ha as ->.
  - split_and!; try done. cbn [fc_go]. intros a [Ha|Ha]%elem_of_app; [by apply I1|]. by apply elem_of_list_singleton in Ha as ->.
  - split_and!; done.
  - destruct (fc_go y !! n) as [a|] eqn:G; [|done]. pose proof (signed_gstep (fc_st y) a m ps) as K. rewrite Hr in K.
    specialize (K (proj2 root_well) (I1 a (elem_of_list_lookup_2 _ _ _ G)) I2).
    destruct (cgstep x z c (fc_st y) a m ps) as [[s a'] o']. destruct K as (K1 & K2 & K3). cbn [fst snd]. split_and!; [|done|].
    + cbn [fc_go]. intros b Hb. destruct a' as [b'|]; [apply insert_in in Hb as [->|Hb]|apply delete_in in Hb]; auto.
    + intros f. rewrite signed_app. intros [Hf|Hf]%elem_of_app; auto.
Qed.

Lemma all_well l f : f ∈ signed (snd (run y0 l)) \/ f ∈ sign_all x c (fc_st (fst (run y0 l))) \/ f = a_root (fc_st (fst (run y0 l))) -> well_signed x c f.
Proof using Hstd.
  destruct (signed_run l) as (_ & I2 & I3). intros [H|[H| ->]]; [by apply I3| |rewrite run_root; apply root_well].
  unfold sign_all in H. apply elem_of_list_fmap in H as (crt & -> & Hc). eapply sign_well.
  - cbn [update_for_signing set_extra c_extra]. rewrite (I2 crt Hc). reflexivity.
  - rewrite run_root. apply root_well.
Qed.
Lemma posted_well l g f : CMsg (PrecertTo g f) ∈ snd (run y0 l) -> well_signed x c f.
Proof using Hstd. intros H. eapply (all_well l). left. by apply (proj2 (posted_run x z c cc y0 l eq_refl) g f). Qed.
Lemma every_well l f : let r := run y0 l in
  f = a_root (fc_st (fst r)) \/ f ∈ signed (snd r) \/ (exists g, CMsg (PrecertTo g f) ∈ snd r) \/ f ∈ sign_all x c (fc_st (fst r)) -> well_signed x c f.
Proof using Hstd. intros r [H|[H|[[g H]|H]]]; [eapply (all_well l); auto..|by eapply posted_well|eapply (all_well l); auto]. Qed.
End signed.
