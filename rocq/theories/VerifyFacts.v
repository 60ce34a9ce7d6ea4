(** Proofs about definition/Verify.go. *)
From Verif Require Import Bytes Hex Json Types Crypto Verify Prog Gossiper SpecCodec SpecVerify CodecFacts JsonFacts CryptoFacts.
From Coq Require Import Lia.
Open Scope string_scope.

Lemma kind_of_spec t :
  match kind_of t with
  | KObj k => t = okind_type k
  | KFrag f => t = frag_type f
  | KUnknown => t ∉ [STH_INIT; REV_INIT; ACC_INIT; CON_INIT; STH_FRAG; REV_FRAG; ACC_FRAG; STH_FULL; REV_FULL; ACC_FULL]
  end.
Proof.
  unfold kind_of.
  repeat match goal with |- context [String.eqb t ?x] => destruct (String.eqb_spec t x) as [->|?]; [reflexivity|] end.
  set_solver.
Qed.

Lemma kind_okind k : kind_of (okind_type k) = KObj k.
Proof. destruct k as [[]| |[]]; reflexivity. Qed.
Lemma kind_init f : kind_of (init_type f) = KObj (OInit f).
Proof. destruct f; reflexivity. Qed.
Lemma kind_full f : kind_of (full_type f) = KObj (OFull f).
Proof. destruct f; reflexivity. Qed.
Lemma kind_frag f : kind_of (frag_type f) = KFrag f.
Proof. destruct f; reflexivity. Qed.

Lemma obj_kind_obj g k : obj_kind g = KObj k <-> g_type g = okind_type k.
Proof.
  unfold obj_kind. split; intros H.
  - pose proof (kind_of_spec (g_type g)) as S. by rewrite H in S.
  - by rewrite H, kind_okind.
Qed.

Lemma obj_kind_frag g f : obj_kind g = KFrag f <-> g_type g = frag_type f.
Proof.
  unfold obj_kind. split; intros H.
  - pose proof (kind_of_spec (g_type g)) as S. by rewrite H in S.
  - by rewrite H, kind_frag.
Qed.

Lemma is_init_kind g : is_init g <-> exists f, obj_kind g = KObj (OInit f).
Proof.
  unfold is_init. split.
  - intros [H|[H|H]]; [exists Sth|exists Rev|exists Acc]; by apply obj_kind_obj.
  - intros [f H]. apply obj_kind_obj in H. destruct f; cbn in H; auto.
Qed.
Lemma is_full_kind g : is_full g <-> exists f, obj_kind g = KObj (OFull f).
Proof.
  unfold is_full. split.
  - intros [H|[H|H]]; [exists Sth|exists Rev|exists Acc]; by apply obj_kind_obj.
  - intros [f H]. apply obj_kind_obj in H. destruct f; cbn in H; auto.
Qed.
Lemma is_frag_kind g : is_frag g <-> exists f, obj_kind g = KFrag f.
Proof.
  unfold is_frag. split.
  - intros [H|[H|H]]; [exists Sth|exists Rev|exists Acc]; by apply obj_kind_frag.
  - intros [f H]. apply obj_kind_frag in H. destruct f; cbn in H; auto.
Qed.
Lemma is_con_kind g : is_con g <-> obj_kind g = KObj OCon.
Proof. unfold is_con. by rewrite obj_kind_obj. Qed.

Lemma is_empty_true s : is_empty s = true <-> s = "".
Proof. by destruct s. Qed.
Lemma is_empty_false s : is_empty s = false <-> s <> "".
Proof. by destruct s. Qed.

Section facts.
Context {P : prims}.
Implicit Types (c : cconf P) (g h : gobj).

Lemma cc_verify_accept c m s : cc_verify c m s = Accept <->
  cc_sign_scheme c = "rsa" /\ exists pk, cc_rsa_pubs c !! rs_id s = Some pk /\ rsa_check pk m (rs_sig s) = true.
Proof.
  unfold cc_verify. destruct (String.eqb_spec (cc_sign_scheme c) "rsa") as [He|He].
  2: { split; [done|]. by intros [? _]. }
  destruct (cc_rsa_pubs c !! rs_id s) as [pk|].
  - destruct (rsa_check pk m (rs_sig s)) eqn:E; split; try done; eauto.
    intros [_ (pk' & H & H')]. congruence.
  - destruct (rsa_nokey_panics P); (split; [done|]); intros [_ (pk' & H & H')]; congruence.
Qed.

Lemma rsa_valid_iff c str m : rsa_valid c str m <->
  exists s, rsasig_from_string str = Some s /\ cc_verify c m s = Accept.
Proof.
  unfold rsa_valid. split.
  - intros (s & pk & H1 & H2 & H3 & H4). exists s. split; [done|]. apply cc_verify_accept. eauto.
  - intros (s & H1 & H2). apply cc_verify_accept in H2 as [H2 (pk & H3 & H4)]. exists s, pk. auto.
Qed.

Lemma key_used_iff c id pk : key_used c id pk <-> pk = bls_key c id.
Proof.
  unfold key_used, bls_key. destruct (cc_bls_pubs c !! id) as [pk'|]; split.
  - intros [H|[H _]]; congruence.
  - intros ->. by left.
  - intros [H|[_ H]]; congruence.
  - intros ->. by right.
Qed.

Lemma keys_used_iff c ids keys : Forall2 (key_used c) ids keys <-> keys = map (bls_key c) ids.
Proof.
  split.
  - induction 1 as [|id pk ids keys H _ IH]; [done|]. apply key_used_iff in H as ->. by rewrite IH.
  - intros ->. induction ids as [|id ids IH]; constructor; [by apply key_used_iff|done].
Qed.

Lemma frag_reads_iff (str : string) (sg : bls_sig P) id : frag_reads str sg id <->
  sg = sf_sign (fst (sigfrag_from_string str)) /\ id = sf_id (fst (sigfrag_from_string (P:=P) str)).
Proof.
  unfold frag_reads, sigfrag_from_string.
  destruct (unmarshal_string_map str) as [mp|]; [destruct (bls_deser_hex (map_get mp "sign")) as [s|]|];
    cbn; split; try (intros [(f & H & -> & ->)|(f & H & -> & ->)]; by simplify_eq).
  - intros [-> ->]. left. eauto.
  - intros [-> ->]. right. eauto.
  - intros [-> ->]. right. eauto.
Qed.

Lemma frag_valid_iff c str m : frag_valid c str m <->
  cc_frag_verify c m (fst (sigfrag_from_string str)) = Accept.
Proof.
  unfold frag_valid, cc_frag_verify.
  destruct (String.eqb_spec (cc_thr_scheme c) "bls") as [He|He].
  2: { split; [|done]. by intros (? & ? & ? & _ & ? & _). }
  split.
  - intros (sg & id & pk & Hr & _ & Hk & Hc). apply frag_reads_iff in Hr as [-> ->].
    apply key_used_iff in Hk as ->. by rewrite Hc.
  - intros H. eexists _, _, _. split; [by apply frag_reads_iff|]. split; [done|].
    split; [by apply key_used_iff|]. by destruct (bls_check _ _ _).
Qed.

Lemma full_valid_iff c str m : full_valid c str m <->
  cc_thr_verify c m (fst (thrsig_from_string str)) = Accept.
Proof.
  unfold full_valid, cc_thr_verify, thr_verify.
  destruct (String.eqb_spec (cc_thr_scheme c) "bls") as [He|He].
  2: { split; [|done]. by intros (? & ? & ? & ? & _ & _ & ? & _). }
  destruct (thrsig_from_string str) as [[ids sg] err] eqn:E. cbn. split.
  - intros (ids' & sg' & err' & keys & H & Hne & _ & Hk & Hc). simplify_eq.
    apply keys_used_iff in Hk as ->. destruct ids' as [|i ids']; [done|]. cbn [map] in Hc |- *. by rewrite Hc.
  - intros H. exists ids, sg, err, (map (bls_key c) ids). destruct ids as [|i ids]; [done|].
    destruct (bls_fast_check _ _ _) eqn:Ec; [|done]. split_and!; try done. by apply keys_used_iff.
Qed.

Lemma both_accept a b : both a b = Accept <-> a = Accept /\ b = Accept.
Proof. destruct a, b; cbn; naive_solver. Qed.

(** C01 *)
Lemma verify_iff c g : verify c g = Accept <-> acceptable c g.
Proof.
  unfold acceptable. rewrite is_init_kind, is_frag_kind, is_full_kind, is_con_kind.
  unfold verify.
  change (covered g) with (signed_msg g).
  destruct (obj_kind g) as [[f| |f]|f|] eqn:K.
  - unfold verify_rsa_payload. rewrite rsa_valid_iff.
    destruct (is_empty (g_s0 g)) eqn:E1; [apply is_empty_true in E1; cbn; split; [done|naive_solver]|].
    destruct (is_empty (g_p0 g)) eqn:E2; [apply is_empty_true in E2; cbn; split; [done|naive_solver]|].
    apply is_empty_false in E1, E2. cbn [negb andb].
    destruct (rsasig_from_string (g_s0 g)) as [s|]; split; try done.
    + intros H. left. split_and!; eauto.
    + intros [(_ & _ & _ & s' & ? & ?)|[([? ?] & _)|[([? ?] & _)|(? & _)]]]; simplify_eq; done.
    + intros [(_ & _ & _ & s' & ? & ?)|[([? ?] & _)|[([? ?] & _)|(? & _)]]]; simplify_eq; done.
  - unfold verify_con. rewrite !rsa_valid_iff. split.
    + destruct (rsasig_from_string (g_s0 g)) as [s1|]; [|done].
      destruct (rsasig_from_string (g_s1 g)) as [s2|]; [|done].
      rewrite both_accept. intros [H1 H2]. right; right; right. eauto 10.
    + intros [([? ?] & _)|[([? ?] & _)|[([? ?] & _)|(_ & (s1 & E1 & H1) & (s2 & E2 & H2))]]]; [done..|].
      rewrite E1, E2. by apply both_accept.
  - unfold verify_payload_threshold. rewrite full_valid_iff.
    destruct (is_empty (g_s0 g)) eqn:E1; [apply is_empty_true in E1; cbn; split; [done|naive_solver]|].
    destruct (is_empty (g_p0 g)) eqn:E2; [apply is_empty_true in E2; cbn; split; [done|naive_solver]|].
    apply is_empty_false in E1, E2. cbn [negb andb]. split.
    + intros H. right; right; left. eauto 10.
    + intros [([? ?] & _)|[([? ?] & _)|[(_ & _ & _ & H)|(? & _)]]]; done.
  - unfold verify_payload_frag. rewrite frag_valid_iff.
    destruct (is_empty (g_s0 g)) eqn:E1; [apply is_empty_true in E1; cbn; split; [done|naive_solver]|].
    destruct (is_empty (g_p0 g)) eqn:E2; [apply is_empty_true in E2; cbn; split; [done|naive_solver]|].
    apply is_empty_false in E1, E2. cbn [negb andb]. split.
    + intros H. right; left. eauto 10.
    + intros [([? ?] & _)|[(_ & _ & _ & H)|[([? ?] & _)|(? & _)]]]; done.
  - split; [done|]. intros [([? ?] & _)|[([? ?] & _)|[([? ?] & _)|(? & _)]]]; done.
Qed.

Lemma verify_core c g h : same_core g h -> verify c g = verify c h.
Proof.
  destruct g, h. unfold same_core. cbn. intros (-> & -> & -> & -> & -> & ->). done.
Qed.

Lemma verify_unknown c g :
  g_type g ∉ [STH_INIT; REV_INIT; ACC_INIT; CON_INIT; STH_FRAG; REV_FRAG; ACC_FRAG; STH_FULL; REV_FULL; ACC_FULL] ->
  verify c g = Reject.
Proof.
  intros H. unfold verify. destruct (obj_kind g) as [k|f|] eqn:K; [exfalso..|done].
  - apply obj_kind_obj in K. rewrite K in H. destruct k as [[]| |[]]; set_solver.
  - apply obj_kind_frag in K. rewrite K in H. destruct f; set_solver.
Qed.

(** Verify panics only when an RSA identity without key is named and the
    RSA library panics on the zero key. *)
Lemma verify_panics c g : verify c g = Panics ->
  rsa_nokey_panics P = true /\
  exists str s, (str = g_s0 g \/ str = g_s1 g) /\ rsasig_from_string str = Some s /\ cc_rsa_pubs c !! rs_id s = None.
Proof.
  assert (forall m s, cc_verify c m s = Panics -> rsa_nokey_panics P = true /\ cc_rsa_pubs c !! rs_id s = None) as Hv.
  { intros m s. unfold cc_verify. destruct (String.eqb _ _); [|done].
    destruct (cc_rsa_pubs c !! rs_id s); [by destruct (rsa_check _ _ _)|]. by destruct (rsa_nokey_panics P). }
  unfold verify, verify_rsa_payload, verify_con, verify_payload_frag, verify_payload_threshold, cc_frag_verify, cc_thr_verify.
  destruct (obj_kind g) as [[f| |f]|f|]; intros H.
  - destruct (_ && _); [|done]. destruct (rsasig_from_string (g_s0 g)) as [s|] eqn:E; [|done].
    apply Hv in H as [? ?]. split; [done|]. exists (g_s0 g), s. auto.
  - destruct (rsasig_from_string (g_s0 g)) as [s1|] eqn:E1; [|done].
    destruct (rsasig_from_string (g_s1 g)) as [s2|] eqn:E2; [|done].
    destruct (cc_verify c (g_p1 g) s1) eqn:V1; destruct (cc_verify c (g_p2 g) s2) eqn:V2; try done;
    (apply Hv in V1 as [? ?] || apply Hv in V2 as [? ?]); (split; [done|]); eauto 10.
  - destruct (_ && _); [|done]. destruct (String.eqb _ _); [|done]. by destruct (thr_verify _ _ _).
  - destruct (_ && _); [|done]. destruct (String.eqb _ _); [|done]. by destruct (bls_check _ _ _).
  - done.
Qed.

(* ---------------------------------------------------------------- *)
(** * Honest objects (C02) *)

Lemma honest_init c (cs : cconf P) pk g s : is_init g -> g_p0 g <> "" -> plain_id (cc_self cs) = true ->
  cc_sign cs (covered g) = Some s -> g_s0 g = rsasig_string s ->
  cc_sign_scheme c = "rsa" -> cc_rsa_pubs c !! cc_self cs = Some pk ->
  rsa_check pk (covered g) (rsa_sign (cc_rsa_sec cs) (covered g)) = true ->
  verify c g = Accept.
Proof.
  intros Hi Hp Hid Hs Hg Hr Hk Hc. apply verify_iff. left. split_and!; try done.
  - by rewrite Hg.
  - unfold cc_sign in Hs. destruct (String.eqb _ _); [|done]. injection Hs as <-.
    exists (mkrsasig (rsa_sign (cc_rsa_sec cs) (covered g)) (cc_self cs)), pk.
    rewrite Hg. split_and!; try done. by apply rsasig_roundtrip.
Qed.

Lemma generate_frag_run (cfg : gconf P) g st st' ts fr :
  run (generate_frag cfg g) st = (st', ts, Done fr) ->
  cc_thr_scheme (gc_crypto cfg) = "bls" /\
  fr = frag_of cfg g (sigfrag_string (mkfrag (bls_sign (cc_bls_sec (gc_crypto cfg)) (signed_msg g)) (cc_self (gc_crypto cfg)))).
Proof.
  unfold generate_frag, cc_thr_sign. destruct (String.eqb_spec (cc_thr_scheme (gc_crypto cfg)) "bls"); [|done].
  cbn. intros H. by simplify_eq.
Qed.

Lemma frag_of_fields (cfg : gconf P) g sg : is_init g ->
  let fr := frag_of cfg g sg in
  is_frag fr /\ g_s0 fr = sg /\ g_p0 fr = g_p0 g /\ g_p1 fr = g_p1 g /\ g_p2 fr = g_p2 g /\
  g_period fr = g_period g /\ g_signer fr = cc_self (gc_crypto cfg).
Proof.
  intros Hi. apply is_init_kind in Hi as [f Hf]. destruct g. cbn. split_and!; try done.
  unfold obj_kind in Hf. cbn in Hf. rewrite Hf. apply is_frag_kind. exists f. unfold obj_kind. cbn. apply kind_frag.
Qed.

Lemma honest_frag c (cfg : gconf P) pk g st st' ts fr :
  is_init g -> g_p0 g <> "" -> plain_id (cc_self (gc_crypto cfg)) = true ->
  run (generate_frag cfg g) st = (st', ts, Done fr) ->
  cc_thr_scheme c = "bls" -> cc_bls_pubs c !! cc_self (gc_crypto cfg) = Some pk ->
  (forall sg : bls_sig P, bls_deser (bls_ser sg) = Some sg) ->
  bls_check pk (covered g) (bls_sign (cc_bls_sec (gc_crypto cfg)) (covered g)) = true ->
  verify c fr = Accept.
Proof.
  intros Hi Hp Hid Hrun Hs Hk Hd Hc. apply generate_frag_run in Hrun as [_ ->].
  destruct (frag_of_fields cfg g (sigfrag_string (mkfrag (bls_sign (cc_bls_sec (gc_crypto cfg)) (signed_msg g)) (cc_self (gc_crypto cfg)))) Hi)
    as (Hf & E0 & E1 & E2 & E3 & _).
  apply verify_iff. right; left. split_and!; try done.
  - by rewrite E0.
  - by rewrite E1.
  - unfold covered. rewrite E0, E1, E2, E3. change (g_p0 g ++ g_p1 g ++ g_p2 g) with (covered g) in *.
    eexists _, _, pk. split_and!.
    + left. eexists. split; [|split; reflexivity]. apply sigfrag_roundtrip; [done|apply Hd].
    + done.
    + by left.
    + done.
Qed.

Lemma generate_full_run (cfg : gconf P) l ty st st' ts full :
  run (generate_full cfg l ty) st = (st', ts, Done full) ->
  let frs := map (λ g, fst (sigfrag_from_string (P:=P) (g_s0 g))) l in
  exists g0 r, l = g0 :: r /\ cc_threshold (gc_crypto cfg) <= length l /\ cc_thr_scheme (gc_crypto cfg) = "bls" /\
  full = mkobj CTNG_APPLICATION (k_period st) ty "" (map g_signer l)
           (thrsig_string (mkthr (sort_ids (map sf_id frs)) (bls_agg (map sf_sign frs)))) "" (k_stamp st) "bls"
           (g_p0 g0) (g_p1 g0) (g_p2 g0).
Proof.
  unfold generate_full, cc_thr_aggregate, thr_aggregate.
  destruct (String.eqb_spec (cc_thr_scheme (gc_crypto cfg)) "bls"); [|done].
  rewrite map_length. destruct (Nat.ltb_spec (length l) (cc_threshold (gc_crypto cfg))); [done|].
  destruct l as [|g0 r]; [done|]. cbn [run pbind pread]. intros H1. simplify_eq. exists g0, r. auto.
Qed.

Lemma honest_full c (cfg : gconf P) l (signers : list (sigfrag P)) ty p0 p1 p2 st st' ts full :
  agg_correct P -> fast_perm P -> (forall sg : bls_sig P, bls_deser (bls_ser sg) = Some sg) ->
  p0 <> "" -> ty ∈ [STH_FULL; REV_FULL; ACC_FULL] -> cc_thr_scheme c = "bls" ->
  Forall2 (λ g f, g_s0 g = sigfrag_string f /\ plain_id (sf_id f) = true /\
                  (g_p0 g = p0 /\ g_p1 g = p1 /\ g_p2 g = p2) /\
                  exists pk, cc_bls_pubs c !! sf_id f = Some pk /\ bls_check pk (p0 ++ p1 ++ p2) (sf_sign f) = true)
          l signers ->
  run (generate_full cfg l ty) st = (st', ts, Done full) ->
  verify c full = Accept.
Proof.
  intros Ha Hp Hd Hne Hty Hs Hl Hrun.
  apply generate_full_run in Hrun as (g0 & r & Hl0 & _ & _ & ->).
  assert (map (λ g, fst (sigfrag_from_string (P:=P) (g_s0 g))) l = signers) as ->.
  { clear Hl0. induction Hl as [|g f l fs (H1 & H2 & _) _ IH]; [done|]. cbn. rewrite IH. f_equal.
    rewrite H1. rewrite sigfrag_roundtrip; [done|done|apply Hd]. }
  assert (g_p0 g0 = p0 /\ g_p1 g0 = p1 /\ g_p2 g0 = p2) as (-> & -> & ->).
  { subst l. by inversion Hl as [|? ? ? ? (_ & _ & ? & _) _]; subst. }
  assert (signers <> []) as Hns. { subst l. by inversion Hl. }
  apply verify_iff. right; right; left. split_and!.
  - unfold is_full. cbn. set_solver.
  - done.
  - done.
  - cbn [g_s0]. unfold covered. cbn [g_p0 g_p1 g_p2].
    eexists _, _, _, _. split; [apply thrsig_roundtrip, Hd|]. cbn [ts_sign ts_ids].
    split.
    { intros H. pose proof (sort_ids_perm (map sf_id signers)) as Hpm. rewrite H in Hpm.
      apply Permutation_nil in Hpm. by destruct signers. }
    split; [done|]. split; [by apply keys_used_iff|].
    rewrite (Hp _ _ _ (map (bls_key c) (map sf_id signers))); [|by rewrite sort_ids_perm].
    specialize (Ha (p0 ++ p1 ++ p2) (map (λ f, (bls_key c (sf_id f), sf_sign f)) signers)).
    rewrite !map_map in Ha. cbn in Ha. rewrite map_map. apply Ha; [by destruct signers|].
    clear -Hl. induction Hl as [|g f l fs (_ & _ & _ & pk & H1 & H2) _ IH]; [constructor|].
    constructor; [|done]. cbn. unfold bls_key. by rewrite H1.
Qed.

(* ---------------------------------------------------------------- *)
(** * What acceptance implies (C03-C06) *)

Lemma full_signers c said g : bls_unforgeable c said -> is_full g -> verify c g = Accept ->
  exists ids sg err, thrsig_from_string (g_s0 g) = (mkthr (P:=P) ids sg, err) /\ ids <> [] /\
    forall id, In id ids -> is_Some (cc_bls_pubs c !! id) -> said id (covered g).
Proof.
  intros Hu Hf Hv. apply verify_iff in Hv. apply is_full_kind in Hf as [f Hf].
  unfold acceptable in Hv. rewrite is_init_kind, is_frag_kind, is_full_kind, is_con_kind, Hf in Hv.
  destruct Hv as [([? ?] & _)|[([? ?] & _)|[(_ & _ & _ & Hv)|(? & _)]]]; try done.
  destruct Hv as (ids & sg & err & keys & H1 & H2 & _ & H4 & H5).
  exists ids, sg, err. split_and!; [done..|]. intros id Hin Hsome. by apply (Hu ids keys _ sg).
Qed.

Lemma full_threshold c said g : bls_unforgeable c said -> is_full g -> verify c g = Accept ->
  (forall ids sg err, thrsig_from_string (g_s0 g) = (mkthr (P:=P) ids sg, err) ->
     NoDup ids /\ cc_threshold c <= length ids /\ (forall id, In id ids -> is_Some (cc_bls_pubs c !! id))) ->
  signed_by_at_least c said (cc_threshold c) (covered g).
Proof.
  intros Hu Hf Hv Hids. destruct (full_signers c said g Hu Hf Hv) as (ids & sg & err & H1 & _ & H3).
  destruct (Hids _ _ _ H1) as (Hn & Hl & Hk). exists ids. split; [done|]. split; [done|]. intros id Hin. auto.
Qed.

Lemma init_signed c said g : rsa_unforgeable c said -> is_init g -> verify c g = Accept ->
  exists s, rsasig_from_string (g_s0 g) = Some s /\ said (rs_id s) (covered g).
Proof.
  intros Hu Hi Hv. apply verify_iff in Hv. apply is_init_kind in Hi as [f Hf].
  unfold acceptable in Hv. rewrite is_init_kind, is_frag_kind, is_full_kind, is_con_kind, Hf in Hv.
  destruct Hv as [(_ & _ & _ & Hv)|[([? ?] & _)|[([? ?] & _)|(? & _)]]]; try done.
  destruct Hv as (s & pk & H1 & _ & H3 & H4). exists s. split; [done|]. by eapply Hu.
Qed.

Lemma init_signed_entity c said g : rsa_unforgeable c said -> is_init g -> verify c g = Accept ->
  (forall s, rsasig_from_string (g_s0 g) = Some s -> rs_id s = g_p0 g) -> said (g_p0 g) (covered g).
Proof.
  intros Hu Hi Hv Hid. destruct (init_signed c said g Hu Hi Hv) as (s & H1 & H2). by rewrite <- (Hid s H1).
Qed.

Lemma con_signed c said g : rsa_unforgeable c said -> is_con g -> verify c g = Accept ->
  exists s1 s2, rsasig_from_string (g_s0 g) = Some s1 /\ rsasig_from_string (g_s1 g) = Some s2 /\
    said (rs_id s1) (g_p1 g) /\ said (rs_id s2) (g_p2 g).
Proof.
  intros Hu Hi Hv. apply verify_iff in Hv. apply is_con_kind in Hi.
  unfold acceptable in Hv. rewrite is_init_kind, is_frag_kind, is_full_kind, is_con_kind, Hi in Hv.
  destruct Hv as [([? ?] & _)|[([? ?] & _)|[([? ?] & _)|(_ & H1 & H2)]]]; try done.
  destruct H1 as (s1 & pk1 & ? & _ & ? & ?), H2 as (s2 & pk2 & ? & _ & ? & ?).
  exists s1, s2. split_and!; try done; by eapply Hu.
Qed.

(** One valid signature of anybody is enough to convict everybody. *)
Lemma con_from_one c str m victim : rsa_valid c str m ->
  verify c (mkobj CTNG_APPLICATION "0" CON_INIT "" [] str str "" "" victim m m) = Accept.
Proof. intros H. apply verify_iff. right; right; right. done. Qed.

Lemma covered_inj g h : len (g_p0 g) = len (g_p0 h) -> len (g_p1 g) = len (g_p1 h) ->
  covered g = covered h -> g_p0 g = g_p0 h /\ g_p1 g = g_p1 h /\ g_p2 g = g_p2 h.
Proof.
  intros H0 H1 H. unfold covered in H. apply app_inj_len in H as [? H]; [|done].
  apply app_inj_len in H as [? ?]; done.
Qed.
End facts.

