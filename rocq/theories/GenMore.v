(** More proofs about generated deployments: identities, connections,
    signatures, and the mapping to IP addresses. *)
From Verif Require Import Bytes Hex Base64 Json CodecFacts JsonFacts Base64Facts Crypto CTngExt ClientMore.
From Verif Require Import CryptoIO IndentFacts SpecCryptoIO CryptoIOFacts Gen SpecGen GenFacts.
From Coq Require Import Lia.
Open Scope string_scope.

Lemma lookup_map_seq {A} (g : nat -> A) n i x : map g (seq 0 n) !! i = Some x <-> i < n /\ x = g i.
Proof.
  rewrite list_lookup_fmap. split.
  - intros E. destruct (seq 0 n !! i) as [j|] eqn:Ej; [|done]. apply lookup_seq in Ej as [-> Hi]. injection E as <-. done.
  - intros [Hi ->]. rewrite lookup_seq_lt by done. done.
Qed.

Section gen.
Context {P : prims} (K : keyio P).
Context (rsa_rand : nat -> rsa_sec P) (bls_rand : nat -> bls_sec P).
Notation rsa_keys := (rsa_keys K rsa_rand).
Notation rsa_key := (rsa_key K rsa_rand).
Notation bls_maps := (bls_maps K bls_rand).
Notation gossip_key := (gossip_key K bls_rand).
Notation file_of := (file_of K rsa_rand bls_rand).
Notation stored_of := (stored_of K rsa_rand bls_rand).
Notation gen_dep := (gen_dep K rsa_rand bls_rand).
Notation generate_all := (generate_all K rsa_rand bls_rand).
Implicit Types (ng nl nc : nat) (thr certs MMD MRD : Z).

(* ---------------------------------------------------------------- *)
(** * Loaded configurations *)

Lemma gen_self ng thr nl nc k i : rsa_json_ok K -> go_int thr -> go_int (Z.of_nat ng) ->
  cc_self (fst (read_cconf K (file_of ng thr nl nc k i))) = url k i.
Proof.
  intros H Ht Hn. unfold read_cconf, GenFacts.file_of. rewrite scc_parse_gen; [|done|done].
  unfold new_cconf. destruct (bls_map_deser _ _ _) as [m []]; [|done]. by destruct (bls_sec_deser _ _).
Qed.

Definition sec_of ng k i : bls_sec P :=
  match k with KGossiper => gossip_key ng i | _ => default (bls_sec0 K) (bls_sec_deser K "") end.

Definition loaded ng thr nl nc k i : cconf P :=
  mkcconf P (Z.to_nat thr) (Z.of_nat ng) 4 "rsa" "bls" (url k i) (rsa_keys ng nl nc).1 (rsa_key ng nl nc k i) (bls_maps ng).1 (sec_of ng k i).

Lemma gen_loaded ng thr nl nc k i : keys_ok K -> go_int thr -> go_int (Z.of_nat ng) ->
  fst (read_cconf K (file_of ng thr nl nc k i)) = loaded ng thr nl nc k i.
Proof.
  intros (H & Hp & Hs) Ht Hn. unfold read_cconf, GenFacts.file_of. rewrite scc_parse_gen; [|done|done].
  unfold new_cconf, GenFacts.stored_of. cbn [sc_self sc_threshold sc_n sc_hash sc_sign_scheme sc_thr_scheme sc_rsa_pubs sc_rsa_sec sc_bls_pubs sc_bls_sec].
  rewrite bls_map_round; [|intros; apply Hp].
  unfold loaded, sec_of. destruct k; try (destruct (bls_sec_deser K "") as [x|]; done). specialize (Hs (gossip_key ng i)). destruct (bls_sec_deser K _) as [x|]; cbn in Hs |- *; by rewrite Hs.
Qed.

Lemma all_configs_gen ng thr nl nc certs MMD : keys_ok K -> go_int thr -> go_int (Z.of_nat ng) ->
  all_configs K (gen_dep ng thr nl nc certs MMD) =
  (map (loaded ng thr nl nc KCA) (seq 0 nc) ++ map (loaded ng thr nl nc KLogger) (seq 0 nl) ++
   map (loaded ng thr nl nc KMonitor) (seq 0 ng) ++ map (loaded ng thr nl nc KGossiper) (seq 0 ng))%list.
Proof.
  intros H Ht Hn. unfold all_configs, GenFacts.gen_dep. cbn [dp_cas dp_loggers dp_monitors dp_gossipers].
  rewrite !map_map. f_equal; [|f_equal; [|f_equal]]; apply map_ext; intros i; unfold config_of; by apply gen_loaded.
Qed.

Lemma in_all_configs ng thr nl nc certs MMD c : keys_ok K -> go_int thr -> go_int (Z.of_nat ng) ->
  c ∈ all_configs K (gen_dep ng thr nl nc certs MMD) <-> exists k i, exists_entity ng nl nc k i /\ c = loaded ng thr nl nc k i.
Proof.
  intros H Ht Hn. rewrite all_configs_gen by done. rewrite !elem_of_app. split.
  - intros I. destruct I as [I|[I|[I|I]]]; apply elem_of_list_fmap in I as (i & -> & I); apply elem_of_seq in I; eexists _, i; (split; [|reflexivity]); cbn; lia.
  - intros (k & i & He & ->).
    destruct k; cbn in He; [left|right; left|right; right; left|right; right; right]; apply elem_of_list_fmap; exists i; (split; [done|apply elem_of_seq; lia]).
Qed.

(* ---------------------------------------------------------------- *)
(** * C51 *)

Theorem gen_identities ng thr nl nc certs MMD MRD d : rsa_json_ok K -> go_int thr -> go_int (Z.of_nat ng) ->
  generate_all ng thr nl nc certs MMD MRD = Some d ->
  map (identity K) (dp_cas d) = urls KCA nc /\ map (identity K) (dp_loggers d) = urls KLogger nl /\
  map (identity K) (dp_monitors d) = urls KMonitor ng /\ map (identity K) (dp_gossipers d) = urls KGossiper ng.
Proof.
  intros H Ht Hn E. apply generated_eq in E as [_ ->]. unfold GenFacts.gen_dep. cbn [dp_cas dp_loggers dp_monitors dp_gossipers].
  rewrite !map_map. unfold urls, identity, config_of. cbn [e_crypto gen_ca gen_lg gen_mn gen_go].
  split_and!; apply map_ext; intros i; by apply gen_self.
Qed.

Lemma urls_nodup k n : n <= 1000 -> NoDup (urls k n).
Proof.
  intros H. apply NoDup_alt. intros i j x Ei Ej.
  pose proof (lookup_lt_Some _ _ _ Ei) as Hi. pose proof (lookup_lt_Some _ _ _ Ej) as Hj. rewrite urls_length in *.
  rewrite urls_lookup in Ei, Ej by done. injection Ei as <-. injection Ej as Ej. symmetry in Ej. eapply url_inj; [|exact Ej]. lia.
Qed.

Lemma urls_disjoint k k' n m x : k <> k' -> x ∈ urls k n -> x ∈ urls k' m -> False.
Proof.
  intros N I J. apply elem_of_list_lookup in I as [i I], J as [j J].
  pose proof (lookup_lt_Some _ _ _ I) as Hi. pose proof (lookup_lt_Some _ _ _ J) as Hj. rewrite urls_length in *.
  rewrite urls_lookup in I, J by done. injection I as <-. injection J as J. apply url_kind in J. congruence.
Qed.

Lemma all_urls_nodup ng nl nc : ng <= 1000 -> nl <= 1000 -> nc <= 1000 ->
  NoDup (urls KCA nc ++ urls KLogger nl ++ urls KMonitor ng ++ urls KGossiper ng).
Proof.
  intros Hg Hl Hc. apply NoDup_app. split; [by apply urls_nodup|]. split.
  { intros x I. rewrite !elem_of_app. intros [J|[J|J]]; (eapply urls_disjoint; [|exact I|exact J]; discriminate). }
  apply NoDup_app. split; [by apply urls_nodup|]. split.
  { intros x I. rewrite !elem_of_app. intros [J|J]; (eapply urls_disjoint; [|exact I|exact J]; discriminate). }
  apply NoDup_app. split; [by apply urls_nodup|]. split; [|by apply urls_nodup].
  intros x I J. (eapply urls_disjoint; [|exact I|exact J]; discriminate).
Qed.

Theorem gen_distinct ng thr nl nc certs MMD MRD d : rsa_json_ok K -> go_int thr ->
  ng <= 1000 -> nl <= 1000 -> nc <= 1000 -> generate_all ng thr nl nc certs MMD MRD = Some d ->
  NoDup (map (identity K) (dp_cas d) ++ map (identity K) (dp_loggers d) ++ map (identity K) (dp_monitors d) ++ map (identity K) (dp_gossipers d)).
Proof.
  intros H Ht Hg Hl Hc E. assert (go_int (Z.of_nat ng)) as Hn by (unfold go_int; lia).
  destruct (gen_identities _ _ _ _ _ _ _ _ H Ht Hn E) as (-> & -> & -> & ->).
  by apply all_urls_nodup.
Qed.

Theorem gen_signers ng thr nl nc certs MMD MRD d : rsa_json_ok K -> go_int thr ->
  ng <= 1000 -> nl <= 1000 -> nc <= 1000 -> generate_all ng thr nl nc certs MMD MRD = Some d ->
  Forall (λ e, cav_signer (e_priv e) = identity K e) (dp_cas d) /\
  Forall (λ e, lgv_signer (e_priv e) = identity K e) (dp_loggers d) /\
  Forall (λ e, mnv_signer (e_priv e) = identity K e) (dp_monitors d).
Proof.
  intros H Ht Hg Hl Hc E. apply generated_eq in E as [_ ->]. unfold GenFacts.gen_dep. cbn [dp_cas dp_loggers dp_monitors].
  split_and!; apply Forall_forall; intros e I; apply elem_of_list_fmap in I as (i & -> & I); apply elem_of_seq in I;
    unfold identity, config_of; cbn [e_crypto e_priv gen_ca gen_lg gen_mn cav_signer lgv_signer mnv_signer];
    (rewrite gen_self; [|done|done|unfold go_int; lia]); rewrite rep_small by lia; done.
Qed.

Theorem gen_connected ng thr nl nc certs MMD MRD d i e : rsa_json_ok K -> go_int thr ->
  ng <= 1000 -> generate_all ng thr nl nc certs MMD MRD = Some d -> dp_gossipers d !! i = Some e ->
  NoDup (gov_connected (e_priv e)) /\
  forall u, u ∈ gov_connected (e_priv e) <-> exists j e', j <> i /\ dp_gossipers d !! j = Some e' /\ u = identity K e'.
Proof.
  intros H Ht Hg E Ei. apply generated_eq in E as [_ ->]. unfold GenFacts.gen_dep in *. cbn [dp_gossipers] in *.
  apply lookup_map_seq in Ei as [Hi ->]. cbn [gen_go e_priv gov_connected]. rewrite rep_small by lia.
  rewrite connected_urls. split.
  - apply NoDup_fmap_2_strong.
    + intros a b Ia Ib Eab. apply elem_of_list_In, filter_In in Ia as [Ia _]. apply in_seq in Ia. eapply url_inj; [|exact Eab]. lia.
    + apply NoDup_ListNoDup, List.NoDup_filter, seq_NoDup.
  - intros u. rewrite elem_of_list_fmap. split.
    + intros (j & -> & I). apply elem_of_list_In, filter_In in I as [I N]. apply in_seq in I.
      apply negb_true_iff, Nat.eqb_neq in N. exists j, (gen_go K rsa_rand bls_rand ng thr nl nc MMD j). split_and!; [congruence| |].
      * apply lookup_map_seq. split; [lia|done].
      * unfold identity, config_of. cbn [gen_go e_crypto]. rewrite gen_self; [done|done|done|unfold go_int; lia].
    + intros (j & e' & N & Ej & ->). apply lookup_map_seq in Ej as [Hj ->].
      exists j. split.
      * unfold identity, config_of. cbn [gen_go e_crypto]. rewrite gen_self; [done|done|done|unfold go_int; lia].
      * apply elem_of_list_In, filter_In. split; [apply in_seq; lia|]. apply negb_true_iff, Nat.eqb_neq. congruence.
Qed.

Theorem gen_pairs ng thr nl nc certs MMD MRD d : rsa_json_ok K -> go_int thr ->
  ng <= 1000 -> generate_all ng thr nl nc certs MMD MRD = Some d ->
  length (dp_monitors d) = length (dp_gossipers d) /\
  forall i m g, dp_monitors d !! i = Some m -> dp_gossipers d !! i = Some g ->
    mnv_gossiper (e_priv m) = identity K g /\ gov_owner (e_priv g) = identity K m.
Proof.
  intros H Ht Hg E. apply generated_eq in E as [_ ->]. unfold GenFacts.gen_dep in *. cbn [dp_gossipers dp_monitors] in *.
  rewrite !map_length, seq_length. split; [done|]. intros i m g Em Eg. apply lookup_map_seq in Em as [Hi ->], Eg as [_ ->].
  unfold identity, config_of. cbn [gen_go gen_mn e_crypto e_priv mnv_gossiper gov_owner]. rewrite rep_small by lia.
  rewrite !gen_self by (done || unfold go_int; lia). done.
Qed.

Theorem gen_serves ng thr nl nc certs MMD MRD d : rsa_json_ok K -> go_int thr -> go_int (Z.of_nat ng) ->
  generate_all ng thr nl nc certs MMD MRD = Some d ->
  Forall (λ e, lgv_cas (e_priv e) = map (identity K) (dp_cas d)) (dp_loggers d).
Proof.
  intros H Ht Hn E. destruct (gen_identities _ _ _ _ _ _ _ _ H Ht Hn E) as (-> & _).
  apply generated_eq in E as [_ ->]. unfold GenFacts.gen_dep in *. cbn [dp_loggers].
  apply Forall_fmap, Forall_true. done.
Qed.

Theorem gen_clash ng thr nl nc certs MMD MRD d : rsa_json_ok K -> go_int thr -> go_int (Z.of_nat ng) ->
  1002 <= ng -> generate_all ng thr nl nc certs MMD MRD = Some d ->
  exists e e', dp_gossipers d !! 1000 = Some e /\ dp_gossipers d !! 1001 = Some e' /\ identity K e = identity K e' /\
    identity K e = "localhost:9".
Proof.
  intros H Ht Hn Hg E. destruct (gen_identities _ _ _ _ _ _ _ _ H Ht Hn E) as (_ & _ & _ & I).
  apply generated_eq in E as [_ ->]. unfold GenFacts.gen_dep in *. cbn [dp_gossipers] in *.
  exists (gen_go K rsa_rand bls_rand ng thr nl nc MMD 1000), (gen_go K rsa_rand bls_rand ng thr nl nc MMD 1001).
  split; [apply lookup_map_seq; split; [lia|done]|]. split; [apply lookup_map_seq; split; [lia|done]|].
  unfold identity, config_of. cbn [gen_go e_crypto]. rewrite !gen_self by done. unfold url. rewrite !postfix_big by lia. done.
Qed.

Theorem gen_sizes ng thr nl nc certs MMD MRD d : generate_all ng thr nl nc certs MMD MRD = Some d ->
  length (dp_cas d) = nc /\ length (dp_loggers d) = nl /\ length (dp_monitors d) = ng /\ length (dp_gossipers d) = ng.
Proof.
  intros E. apply generated_eq in E as [_ ->]. unfold GenFacts.gen_dep. cbn [dp_cas dp_loggers dp_monitors dp_gossipers].
  by rewrite !map_length, !seq_length.
Qed.

Theorem gen_defined ng thr nl nc certs MMD MRD : is_Some (generate_all ng thr nl nc certs MMD MRD) <-> (0 < nl \/ nc = 0).
Proof.
  split.
  - intros [d E]. by apply generated_eq in E as [? _].
  - intros H. rewrite generate_all_eq by done. eauto.
Qed.

(* ---------------------------------------------------------------- *)
(** * Periods *)

Theorem gen_times ng thr nl nc certs MMD MRD d : generate_all ng thr nl nc certs MMD MRD = Some d ->
  Forall (λ e, cap_mmd (e_pub e) = MMD /\ cap_mrd (e_pub e) = MMD /\ cav_certs (e_priv e) = certs) (dp_cas d) /\
  Forall (λ e, lgp_mmd (e_pub e) = MMD /\ lgp_mrd (e_pub e) = MMD) (dp_loggers d) /\
  Forall (λ e, mnp_mmd (e_pub e) = MMD /\ mnp_mrd (e_pub e) = MMD) (dp_monitors d) /\
  Forall (λ e, gop_mmd (e_pub e) = MMD /\ gop_mrd (e_pub e) = MMD) (dp_gossipers d).
Proof.
  intros E. apply generated_eq in E as [_ ->]. unfold GenFacts.gen_dep. cbn [dp_cas dp_loggers dp_monitors dp_gossipers].
  split_and!; apply Forall_fmap, Forall_true; done.
Qed.

Theorem gen_mrd ng thr nl nc certs MMD MRD MRD' :
  generate_all ng thr nl nc certs MMD MRD = generate_all ng thr nl nc certs MMD MRD'.
Proof. reflexivity. Qed.

(* ---------------------------------------------------------------- *)
(** * Signatures *)

Theorem gen_interoperate ng thr nl nc certs MMD MRD d c c' m : keys_ok K -> rsa_correct K -> go_int thr -> go_int (Z.of_nat ng) ->
  generate_all ng thr nl nc certs MMD MRD = Some d -> c ∈ all_configs K d -> c' ∈ all_configs K d ->
  exists sg, cc_sign c m = Some sg /\ rs_id sg = cc_self c /\ cc_verify c' m sg = Accept.
Proof.
  intros H HR Ht Hn E Ic Ic'. apply generated_eq in E as [_ ->].
  apply in_all_configs in Ic as (k & i & He & ->); [|done|done|done]. apply in_all_configs in Ic' as (k' & i' & He' & ->); [|done|done|done].
  eexists. split; [reflexivity|]. split; [done|]. unfold cc_verify. cbn [loaded cc_sign_scheme cc_rsa_pubs rs_id rs_sig cc_self cc_rsa_sec].
  rewrite rsa_key_pub by done. cbn. by rewrite HR.
Qed.

Theorem gen_fragments ng thr nl nc certs MMD MRD d g c' m : keys_ok K -> bls_correct K -> go_int thr -> go_int (Z.of_nat ng) ->
  2 <= ng -> generate_all ng thr nl nc certs MMD MRD = Some d -> g ∈ dp_gossipers d -> c' ∈ all_configs K d ->
  exists f, cc_thr_sign (config_of K g) m = Some f /\ sf_id f = identity K g /\ cc_frag_verify c' m f = Accept.
Proof.
  intros H HB Ht Hn H2 E Ig Ic'. apply generated_eq in E as [_ ->].
  apply in_all_configs in Ic' as (k' & i' & He' & ->); [|done|done|done].
  unfold GenFacts.gen_dep in Ig. cbn [dp_gossipers] in Ig. apply elem_of_list_fmap in Ig as (i & -> & I). apply elem_of_seq in I.
  unfold identity, config_of. cbn [gen_go e_crypto]. rewrite gen_loaded by done.
  eexists. split; [reflexivity|]. split; [done|]. unfold cc_frag_verify, Crypto.bls_key.
  cbn [loaded cc_thr_scheme cc_bls_pubs sf_id sf_sign cc_self cc_bls_sec sec_of].
  rewrite bls_maps_match. unfold GenFacts.gossip_key. destruct (bls_maps_some K bls_rand ng i) as [x ->]; [done|lia|]. cbn.
  by rewrite HB.
Qed.

Theorem gen_parameters ng thr nl nc certs MMD MRD d : keys_ok K -> go_int thr -> go_int (Z.of_nat ng) ->
  generate_all ng thr nl nc certs MMD MRD = Some d ->
  Forall (λ c, cc_threshold c = Z.to_nat thr /\ cc_n c = Z.of_nat ng) (all_configs K d).
Proof.
  intros H Ht Hn E. apply generated_eq in E as [_ ->]. apply Forall_forall. intros c I.
  by apply in_all_configs in I as (k & i & He & ->).
Qed.

(* ---------------------------------------------------------------- *)
(** * Loggers of a CA *)

Theorem gen_ca_loggers ng thr nl nc certs MMD MRD d i e : nl <= 1000 -> nc <= 1000 ->
  generate_all ng thr nl nc certs MMD MRD = Some d -> dp_cas d !! i = Some e ->
  exists a b, cav_loggers (e_priv e) = [url KLogger a; url KLogger b] /\ a < nl /\ b < nl /\
    (a = b <-> 2 * (i mod nl) + 1 = nl).
Proof.
  intros Hl Hc E Ei. apply generated_eq in E as [H ->]. unfold GenFacts.gen_dep in *. cbn [dp_cas] in *.
  apply lookup_map_seq in Ei as [Hi ->]. cbn [gen_ca e_priv cav_loggers]. rewrite rep_small by lia.
  assert (0 < nl) as Hnl by lia. assert (i mod nl < nl) by (apply Nat.mod_upper_bound; lia).
  eexists _, _. split; [reflexivity|]. split; [done|]. split; [lia|]. lia.
Qed.

End gen.
