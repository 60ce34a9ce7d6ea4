(** Proofs about the mapping of a generated deployment to IP
    addresses. *)
From Verif Require Import Bytes Hex Base64 Json CodecFacts JsonFacts Base64Facts Crypto CTngExt ClientMore.
From Verif Require Import CryptoIO IndentFacts SpecCryptoIO CryptoIOFacts Gen SpecGen GenFacts GenMore.
From Coq Require Import Lia.
Open Scope string_scope.

(* ---------------------------------------------------------------- *)
(** * Renamed key maps *)

Definition all_urls {V} (l : list (string * V)) : Prop := Forall (λ e, exists k i, fst e = url k i /\ i < 1000) l.

Lemma rekey_map_spec {V} t (l : list (string * V)) : all_urls l -> NoDup l.*1 -> forall acc, exists m, rekey_map t l acc = Some m /\
  forall a v, m !! a = Some v <->
    (exists k i, a = address t k i /\ i < 1000 /\ (url k i, v) ∈ l) \/
    (acc !! a = Some v /\ forall k i v', i < 1000 -> (url k i, v') ∈ l -> a <> address t k i).
Proof.
  induction l as [|[s v0] l IH]; intros F N acc.
  - exists acc. split; [done|]. intros a v. split.
    + intros E. right. split; [done|]. intros k i v' _ I. by apply elem_of_nil in I.
    + intros [(k & i & _ & _ & I)|[E _]]; [by apply elem_of_nil in I|done].
  - inversion F as [|? ? (k0 & i0 & E0 & H0) F']; subst. cbn in E0. subst s. cbn in N. apply NoDup_cons in N as [N0 N].
    cbn [rekey_map]. rewrite rekey_url by done. destruct (IH F' N (<[address t k0 i0 := v0]> acc)) as (m & Em & Hm).
    exists m. split; [done|]. intros a v. rewrite Hm. split.
    + intros [(k & i & -> & Hi & I)|[E Hn]].
      * left. exists k, i. split_and!; [done|done|by right].
      * destruct (decide (a = address t k0 i0)) as [->|Na].
        { rewrite lookup_insert in E. injection E as <-. left. exists k0, i0. split_and!; [done|done|left]. }
        rewrite lookup_insert_ne in E by done. right. split; [done|]. intros k i v' Hi I ->.
        apply elem_of_cons in I as [I|I]; [injection I as I _|by eapply Hn].
        assert (k = k0) as -> by (by eapply url_kind). apply url_inj in I as ->; [done|done].
    + intros [(k & i & -> & Hi & I)|[E Hn]].
      * apply elem_of_cons in I as [I|I].
        { injection I as I ->. assert (k = k0) as -> by (by eapply url_kind). apply url_inj in I as ->; [|done].
          right. split; [by rewrite lookup_insert|]. intros k' i' v' Hi' I' E'. apply address_inj in E' as [<- <-]; [|done|done].
          apply N0. apply elem_of_list_fmap. by eexists (_, v'). }
        left. eauto.
      * right. assert (a <> address t k0 i0) as Na by (apply (Hn k0 i0 v0); [done|left]).
        rewrite lookup_insert_ne by done. split; [done|]. intros k i v' Hi I. apply (Hn k i v'); [done|by right].
Qed.

Lemma rekey_renamed {V} t (m : gmap string V) : (forall id, is_Some (m !! id) -> exists k i, id = url k i /\ i < 1000) ->
  exists m', rekey_map t (map_to_list m) ∅ = Some m' /\ renamed t m m'.
Proof.
  intros D. destruct (rekey_map_spec t (map_to_list m)) with (acc := ∅ : gmap string V) as (m' & E & H).
  - apply Forall_forall. intros [a v] I. apply elem_of_map_to_list in I. apply D. by exists v.
  - apply NoDup_fst_map_to_list.
  - exists m'. split; [done|]. intros a v. rewrite H. split.
    + intros [(k & i & -> & Hi & I)|[E' _]]; [|by rewrite lookup_empty in E'].
      exists k, i. split_and!; [done|done|]. by apply elem_of_map_to_list.
    + intros (k & i & -> & Hi & I). left. exists k, i. split_and!; [done|done|]. by apply elem_of_map_to_list.
Qed.

Lemma renamed_at {V} t (m m' : gmap string V) k i : i < 1000 -> renamed t m m' -> m' !! address t k i = m !! url k i.
Proof.
  intros Hi H. apply option_eq. intros v. rewrite (H (address t k i) v). split.
  - intros (k' & i' & E & Hi' & I). apply address_inj in E as [<- <-]; done.
  - intros E. by exists k, i.
Qed.

(* ---------------------------------------------------------------- *)
(** * Lists by position *)

Lemma zip_seq {A} (g : nat -> A) n b s : zip (seq b n) (map g (seq s n)) = map (λ j, (b + j, g (s + j))) (seq 0 n).
Proof.
  revert b s. induction n as [|n IH]; intros b s; [done|]. cbn [seq map zip zip_with].
  rewrite !Nat.add_0_r. f_equal. etransitivity; [apply (IH (S b) (S s))|].
  rewrite <-seq_shift, map_map. apply map_ext. intros j. f_equal; [lia|]. f_equal. lia.
Qed.

Lemma mapM_map {A B C} (f : B -> option C) (g : A -> B) (h : A -> C) l : Forall (λ x, f (g x) = Some (h x)) l -> mapM f (map g l) = Some (map h l).
Proof.
  intros F. apply mapM_Some_2. apply Forall2_fmap_l, Forall2_fmap_r. apply Forall_Forall2_diag. exact F.
Qed.

Lemma mapM_zip {A B} (f : nat -> A -> option B) (g : nat -> A) (h : nat -> B) b n : (forall j, j < n -> f (b + j) (g j) = Some (h j)) ->
  mapM (λ e, f (fst e) (snd e)) (zip (seq b (length (map g (seq 0 n)))) (map g (seq 0 n))) = Some (map h (seq 0 n)).
Proof.
  intros H. rewrite map_length, seq_length, zip_seq. apply mapM_map. apply Forall_forall. intros j I. apply elem_of_seq in I.
  cbn. apply H. lia.
Qed.

Lemma by_index_urls t k n : n <= 1000 -> by_index t k (urls k n) = Some (addresses t k n).
Proof.
  intros H. unfold by_index, urls, addresses. apply (mapM_zip (λ i s, readdress (ip_of t k i) s)). intros j Hj. cbn.
  apply readdress_url. lia.
Qed.

Section gen.
Context {P : prims} (K : keyio P).
Context (rsa_rand : nat -> rsa_sec P) (bls_rand : nat -> bls_sec P) (t : iptable).
Notation rsa_keys := (rsa_keys K rsa_rand).
Notation rsa_key := (rsa_key K rsa_rand).
Notation bls_maps := (bls_maps K bls_rand).
Notation gossip_key := (gossip_key K bls_rand).
Notation file_of := (file_of K rsa_rand bls_rand).
Notation gen_dep := (gen_dep K rsa_rand bls_rand).
Notation generate_all := (generate_all K rsa_rand bls_rand).
Notation loaded := (loaded K rsa_rand bls_rand).
Notation sec_of := (sec_of K bls_rand).
Implicit Types (ng nl nc : nat) (thr certs MMD MRD : Z).

Definition fits ng nl nc : Prop := ng <= 1000 /\ nl <= 1000 /\ nc <= 1000.

Lemma fits_entity ng nl nc k i : fits ng nl nc -> exists_entity ng nl nc k i -> i < 1000.
Proof. intros (A & B & C). destruct k; cbn; lia. Qed.

Lemma fits_int ng nl nc : fits ng nl nc -> go_int (Z.of_nat ng).
Proof. intros (A & B & C). unfold go_int. lia. Qed.

(** The key maps after the mapping. *)
Definition new_rsa ng nl nc : gmap string (rsa_pub P) := default ∅ (rekey_map t (map_to_list (rsa_keys ng nl nc).1) ∅).
Definition new_bls ng : gmap string (bls_pub P) := default ∅ (rekey_map t (map_to_list (bls_maps ng).1) ∅).

Lemma new_rsa_spec ng nl nc : fits ng nl nc -> rekey_map t (map_to_list (rsa_keys ng nl nc).1) ∅ = Some (new_rsa ng nl nc) /\
  renamed t (rsa_keys ng nl nc).1 (new_rsa ng nl nc).
Proof.
  intros F. unfold new_rsa. destruct (rekey_renamed t (rsa_keys ng nl nc).1) as (m & E & H).
  - intros id D. apply rsa_keys_dom in D as (k & i & -> & D). exists k, i. split; [done|]. by eapply fits_entity.
  - by rewrite E.
Qed.

Lemma new_bls_spec ng : ng <= 1000 -> rekey_map t (map_to_list (bls_maps ng).1) ∅ = Some (new_bls ng) /\ renamed t (bls_maps ng).1 (new_bls ng).
Proof.
  intros F. unfold new_bls. destruct (rekey_renamed t (bls_maps ng).1) as (m & E & H).
  - intros id D. apply bls_maps_dom in D as (i & -> & D). exists KGossiper, i. split; [done|]. lia.
  - by rewrite E.
Qed.

(** The configuration of an entity after the mapping. *)
Definition mapped ng thr nl nc k i : cconf P :=
  mkcconf P (Z.to_nat thr) (Z.of_nat ng) 4 "rsa" "bls" (address t k i) (new_rsa ng nl nc) (rsa_key ng nl nc k i) (new_bls ng) (sec_of ng k i).

Lemma map_crypto_gen ng thr nl nc k i : keys_ok K -> go_int thr -> fits ng nl nc -> exists_entity ng nl nc k i ->
  map_crypto K t (S i) (file_of ng thr nl nc k i) = Some (write_cconf K (mapped ng thr nl nc k i)).
Proof.
  intros H Ht F He. unfold map_crypto. rewrite gen_loaded; [|done|done|by eapply fits_int].
  unfold GenMore.loaded. cbn [cc_self cc_rsa_pubs cc_bls_pubs].
  rewrite reself_url by (by eapply fits_entity). destruct (new_rsa_spec ng nl nc F) as [-> _].
  destruct (new_bls_spec ng) as [-> _]; [by destruct F|]. done.
Qed.

Lemma mapped_read ng thr nl nc k i : keys_ok K -> go_int thr -> fits ng nl nc ->
  fst (read_cconf K (write_cconf K (mapped ng thr nl nc k i))) = mapped ng thr nl nc k i.
Proof.
  intros (H & Hp & Hs) Ht F. unfold read_cconf, write_cconf.
  rewrite scc_parse_write; [|done|]; cycle 1.
  { split; [|split]; cbn; [unfold go_int in *; lia|by eapply fits_int|unfold go_int; lia]. }
  unfold new_cconf, new_stored. cbn [sc_self sc_threshold sc_n sc_hash sc_sign_scheme sc_thr_scheme sc_rsa_pubs sc_rsa_sec sc_bls_pubs sc_bls_sec].
  rewrite bls_map_round; [|intros; apply Hp]. rewrite Nat2Z.id. specialize (Hs (sec_of ng k i)).
  cbn [mapped cc_bls_sec]. destruct (bls_sec_deser K _) as [x|]; cbn in Hs |- *; by rewrite Hs.
Qed.

(* ---------------------------------------------------------------- *)
(** * The deployment after the mapping *)

Definition mcrypto ng thr nl nc k i := write_cconf K (mapped ng thr nl nc k i).

Definition mapped_ca ng thr nl nc certs MMD (i : nat) : entity ca_pub ca_priv :=
  mkentity (ca_pub_of (addresses t KLogger nl) (addresses t KCA nc) MMD MMD)
    (mkca_priv (address t KCA i) (port KCA i)
       [ip_of t KLogger i ++ ":" ++ port KLogger (i mod nl); ip_of t KLogger i ++ ":" ++ port KLogger (nl - 1 - i mod nl)]
       (addresses t KMonitor ng) (addresses t KGossiper ng) certs) (mcrypto ng thr nl nc KCA i).
Definition mapped_lg ng thr nl nc MMD (i : nat) : entity lg_pub lg_priv :=
  mkentity (lg_pub_of (addresses t KLogger nl) (addresses t KCA nc) MMD MMD)
    (mklg_priv (address t KLogger i) (port KLogger i) (urls KCA nc) (addresses t KMonitor ng) (addresses t KGossiper ng)) (mcrypto ng thr nl nc KLogger i).
Definition mapped_mn ng thr nl nc MMD (i : nat) : entity mn_pub mn_priv :=
  mkentity (mn_pub_of (addresses t KLogger nl) (addresses t KCA nc) MMD MMD 5)
    (mkmn_priv (addresses t KCA nc) (addresses t KLogger nl) (address t KMonitor i) (address t KGossiper i) (port KGossiper i) (port KMonitor i))
    (mcrypto ng thr nl nc KMonitor i).
Definition mapped_go ng thr nl nc MMD (i : nat) : entity go_pub go_priv :=
  mkentity (go_pub_of (addresses t KGossiper ng) (addresses t KMonitor ng) MMD MMD 5)
    (mkgo_priv (map (address t KGossiper) (List.filter (λ j, negb (Nat.eqb i j)) (seq 0 ng)))
       (ip_of t KGossiper i ++ ":" ++ port KMonitor i) (port KGossiper i)) (mcrypto ng thr nl nc KGossiper i).

Definition mapped_dep ng thr nl nc certs MMD : deployment :=
  mkdep (map (mapped_ca ng thr nl nc certs MMD) (seq 0 nc)) (map (mapped_lg ng thr nl nc MMD) (seq 0 nl))
        (map (mapped_mn ng thr nl nc MMD) (seq 0 ng)) (map (mapped_go ng thr nl nc MMD) (seq 0 ng)).

Lemma mapM_gossip ng i : ng <= 1000 ->
  mapM (λ g, match last_n 3 g with Some d => readdress (ip_at t KGossiper (atoi0 d)) g | None => None end) (connected (urls KGossiper ng) i)
  = Some (map (address t KGossiper) (List.filter (λ j, negb (Nat.eqb i j)) (seq 0 ng))).
Proof.
  intros H. rewrite connected_urls. apply mapM_map. apply Forall_forall. intros j I.
  apply elem_of_list_In, List.filter_In in I as [I _]. apply in_seq in I. assert (j < 1000) as Hj by lia.
  destruct (url_slices KGossiper j Hj) as (_ & _ & -> & ->). rewrite ip_at_nat. by apply readdress_url.
Qed.

Lemma map_all_gen ng thr nl nc certs MMD : keys_ok K -> go_int thr -> fits ng nl nc -> (0 < nl \/ nc = 0) ->
  map_all K t (gen_dep ng thr nl nc certs MMD) = Some (mapped_dep ng thr nl nc certs MMD).
Proof.
  intros H Ht F D. pose proof F as (Fg & Fl & Fc). unfold map_all, map_entities, GenFacts.gen_dep. cbn [dp_cas dp_loggers dp_monitors dp_gossipers].
  assert (forall k n, n <= 1000 -> by_index t k (urls k n) = Some (addresses t k n)) as B by (intros; by apply by_index_urls).
  rewrite (mapM_zip (map_entity K t (map_ca_pub t) (map_ca_priv t)) _ (mapped_ca ng thr nl nc certs MMD)); cycle 1.
  { intros j Hj. unfold map_entity, gen_ca. cbn [e_priv e_pub e_crypto]. rewrite rep_small by lia.
    change (1 + j) with (S j). rewrite map_crypto_gen by done.
    unfold map_ca_pub, map_ca_priv, ca_pub_of. cbn [cav_signer cav_port cav_loggers cav_monitors cav_gossipers cav_certs cap_cas cap_loggers cap_mmd cap_mrd cap_http].
    rewrite !B by done. rewrite !ip_at_id, readdress_url by lia. assert (j mod nl < nl) by (apply Nat.mod_upper_bound; lia).
    cbn [mapM]. rewrite !readdress_any by lia. done. }
  rewrite (mapM_zip (map_entity K t (map_lg_pub t) (map_lg_priv t)) _ (mapped_lg ng thr nl nc MMD)); cycle 1.
  { intros j Hj. unfold map_entity, gen_lg. cbn [e_priv e_pub e_crypto]. rewrite rep_small by lia.
    change (1 + j) with (S j). rewrite map_crypto_gen by done.
    unfold map_lg_pub, map_lg_priv, lg_pub_of. cbn [lgv_signer lgv_port lgv_cas lgv_monitors lgv_gossipers lgp_cas lgp_loggers lgp_mmd lgp_mrd lgp_http].
    rewrite !B by done. rewrite !ip_at_id, readdress_url by lia. done. }
  rewrite (mapM_zip (map_entity K t (map_mn_pub t) (map_mn_priv t)) _ (mapped_mn ng thr nl nc MMD)); cycle 1.
  { intros j Hj. unfold map_entity, gen_mn. cbn [e_priv e_pub e_crypto]. rewrite rep_small by lia.
    change (1 + j) with (S j). rewrite map_crypto_gen by done.
    unfold map_mn_pub, map_mn_priv, mn_pub_of. cbn [mnv_cas mnv_loggers mnv_signer mnv_gossiper mnv_inbound mnv_port mnp_cas mnp_loggers mnp_wait mnp_mmd mnp_mrd].
    rewrite !B by done. rewrite !ip_at_id, !readdress_url by lia. done. }
  rewrite (mapM_zip (map_entity K t (map_go_pub t) (map_go_priv t)) _ (mapped_go ng thr nl nc MMD)); cycle 1.
  { intros j Hj. unfold map_entity, gen_go. cbn [e_priv e_pub e_crypto]. rewrite rep_small by lia.
    change (1 + j) with (S j). rewrite map_crypto_gen by done.
    unfold map_go_pub, map_go_priv, go_pub_of. cbn [gov_connected gov_owner gov_port gop_wait gop_mmd gop_mrd gop_gossipers gop_signers].
    rewrite !B by done. rewrite mapM_gossip by done. rewrite !ip_at_id, !readdress_url by lia. done. }
  done.
Qed.


Lemma mapped_inv ng thr nl nc certs MMD MRD d d' : keys_ok K -> go_int thr -> fits ng nl nc ->
  generate_all ng thr nl nc certs MMD MRD = Some d -> map_all K t d = Some d' ->
  d = gen_dep ng thr nl nc certs MMD /\ d' = mapped_dep ng thr nl nc certs MMD /\ (0 < nl \/ nc = 0).
Proof.
  intros H Ht F E E'. apply generated_eq in E as [D ->]. rewrite map_all_gen in E' by done. injection E' as <-. done.
Qed.

Theorem map_defined ng thr nl nc certs MMD MRD d : keys_ok K -> go_int thr ->
  ng <= 1000 -> nl <= 1000 -> nc <= 1000 ->
  generate_all ng thr nl nc certs MMD MRD = Some d -> is_Some (map_all K t d).
Proof.
  intros H Ht Hg Hl Hc E. apply generated_eq in E as [D ->]. rewrite map_all_gen by done. eauto.
Qed.

Lemma mapped_self ng thr nl nc k i : keys_ok K -> go_int thr -> fits ng nl nc ->
  cc_self (fst (read_cconf K (mcrypto ng thr nl nc k i))) = address t k i.
Proof. intros H Ht F. unfold mcrypto. by rewrite mapped_read. Qed.

Theorem mapped_identities ng thr nl nc certs MMD MRD d d' : keys_ok K -> go_int thr ->
  ng <= 1000 -> nl <= 1000 -> nc <= 1000 ->
  generate_all ng thr nl nc certs MMD MRD = Some d -> map_all K t d = Some d' ->
  map (identity K) (dp_cas d') = addresses t KCA nc /\ map (identity K) (dp_loggers d') = addresses t KLogger nl /\
  map (identity K) (dp_monitors d') = addresses t KMonitor ng /\ map (identity K) (dp_gossipers d') = addresses t KGossiper ng.
Proof.
  intros H Ht Hg Hl Hc E E'. assert (fits ng nl nc) as F by done. destruct (mapped_inv _ _ _ _ _ _ _ _ _ H Ht F E E') as (-> & -> & D).
  unfold mapped_dep. cbn [dp_cas dp_loggers dp_monitors dp_gossipers].
  rewrite !map_map. unfold addresses, identity, config_of. cbn [e_crypto mapped_ca mapped_lg mapped_mn mapped_go].
  split_and!; apply map_ext; intros i; by apply mapped_self.
Qed.

Lemma addresses_nodup k n : n <= 1000 -> NoDup (addresses t k n).
Proof.
  intros H. unfold addresses. apply NoDup_fmap_2_strong; [|apply NoDup_seq].
  intros a b Ia Ib E. apply elem_of_seq in Ia, Ib. apply address_inj in E as [_ E]; [done|lia|lia].
Qed.

Lemma addresses_disjoint k k' n m x : n <= 1000 -> m <= 1000 -> k <> k' -> x ∈ addresses t k n -> x ∈ addresses t k' m -> False.
Proof.
  intros Hn Hm N I J. apply elem_of_list_fmap in I as (a & -> & Ia), J as (b & E & Ib). apply elem_of_seq in Ia, Ib.
  apply address_inj in E as [E _]; [done|lia|lia].
Qed.

Theorem mapped_distinct ng thr nl nc certs MMD MRD d d' : keys_ok K -> go_int thr ->
  ng <= 1000 -> nl <= 1000 -> nc <= 1000 ->
  generate_all ng thr nl nc certs MMD MRD = Some d -> map_all K t d = Some d' ->
  NoDup (map (identity K) (dp_cas d') ++ map (identity K) (dp_loggers d') ++ map (identity K) (dp_monitors d') ++ map (identity K) (dp_gossipers d')).
Proof.
  intros H Ht Hg Hl Hc E E'. destruct (mapped_identities _ _ _ _ _ _ _ _ _ H Ht Hg Hl Hc E E') as (-> & -> & -> & ->).
  apply NoDup_app. split; [by apply addresses_nodup|]. split.
  { intros x I. rewrite !elem_of_app. intros [J|[J|J]]; (eapply addresses_disjoint; [| | |exact I|exact J]; done). }
  apply NoDup_app. split; [by apply addresses_nodup|]. split.
  { intros x I. rewrite !elem_of_app. intros [J|J]; (eapply addresses_disjoint; [| | |exact I|exact J]; done). }
  apply NoDup_app. split; [by apply addresses_nodup|]. split; [|by apply addresses_nodup].
  intros x I J. eapply addresses_disjoint; [| | |exact I|exact J]; done.
Qed.

Lemma all_configs_mapped ng thr nl nc certs MMD : keys_ok K -> go_int thr -> fits ng nl nc ->
  all_configs K (mapped_dep ng thr nl nc certs MMD) =
  (map (mapped ng thr nl nc KCA) (seq 0 nc) ++ map (mapped ng thr nl nc KLogger) (seq 0 nl) ++
   map (mapped ng thr nl nc KMonitor) (seq 0 ng) ++ map (mapped ng thr nl nc KGossiper) (seq 0 ng))%list.
Proof.
  intros H Ht F. unfold all_configs, mapped_dep. cbn [dp_cas dp_loggers dp_monitors dp_gossipers].
  rewrite !map_map. f_equal; [|f_equal; [|f_equal]]; apply map_ext; intros i; unfold config_of; by apply mapped_read.
Qed.

Lemma in_all_mapped ng thr nl nc certs MMD c : keys_ok K -> go_int thr -> fits ng nl nc ->
  c ∈ all_configs K (mapped_dep ng thr nl nc certs MMD) <-> exists k i, exists_entity ng nl nc k i /\ c = mapped ng thr nl nc k i.
Proof.
  intros H Ht Hn. rewrite all_configs_mapped by done. rewrite !elem_of_app. split.
  - intros I. destruct I as [I|[I|[I|I]]]; apply elem_of_list_fmap in I as (i & -> & I); apply elem_of_seq in I; eexists _, i; (split; [|reflexivity]); cbn; lia.
  - intros (k & i & He & ->).
    destruct k; cbn in He; [left|right; left|right; right; left|right; right; right]; apply elem_of_list_fmap; exists i; (split; [done|apply elem_of_seq; lia]).
Qed.

Lemma one_mapped ng thr nl nc k i : fits ng nl nc -> exists_entity ng nl nc k i ->
  remapped t (loaded ng thr nl nc k i) (mapped ng thr nl nc k i).
Proof.
  intros F He. unfold remapped. cbn. split; [exists k, i; split_and!; [done|done|by eapply fits_entity]|].
  split; [by apply new_rsa_spec|]. split; [apply new_bls_spec; by destruct F|]. done.
Qed.

Theorem mapped_configs ng thr nl nc certs MMD MRD d d' : keys_ok K -> go_int thr ->
  ng <= 1000 -> nl <= 1000 -> nc <= 1000 ->
  generate_all ng thr nl nc certs MMD MRD = Some d -> map_all K t d = Some d' ->
  Forall2 (remapped t) (all_configs K d) (all_configs K d').
Proof.
  intros H Ht Hg Hl Hc E E'. assert (fits ng nl nc) as F by done. destruct (mapped_inv _ _ _ _ _ _ _ _ _ H Ht F E E') as (-> & -> & D).
  rewrite all_configs_mapped, all_configs_gen by (done || by eapply fits_int).
  repeat apply Forall2_app; apply Forall2_fmap_l, Forall2_fmap_r, Forall_Forall2_diag, Forall_forall; intros i I; apply elem_of_seq in I;
    apply one_mapped; (done || cbn; lia).
Qed.

Theorem mapped_interoperate ng thr nl nc certs MMD MRD d d' c c' m : keys_ok K -> rsa_correct K -> go_int thr ->
  ng <= 1000 -> nl <= 1000 -> nc <= 1000 ->
  generate_all ng thr nl nc certs MMD MRD = Some d -> map_all K t d = Some d' -> c ∈ all_configs K d' -> c' ∈ all_configs K d' ->
  exists sg, cc_sign c m = Some sg /\ rs_id sg = cc_self c /\ cc_verify c' m sg = Accept.
Proof.
  intros H HR Ht Hg Hl Hc E E' Ic Ic'. assert (fits ng nl nc) as F by done. destruct (mapped_inv _ _ _ _ _ _ _ _ _ H Ht F E E') as (-> & -> & D).
  apply in_all_mapped in Ic as (k & i & He & ->); [|done|done|done]. apply in_all_mapped in Ic' as (k' & i' & He' & ->); [|done|done|done].
  eexists. split; [reflexivity|]. split; [done|]. unfold cc_verify. cbn [mapped cc_sign_scheme cc_rsa_pubs rs_id rs_sig cc_self cc_rsa_sec].
  rewrite (renamed_at t (rsa_keys ng nl nc).1); [|by eapply fits_entity|by apply new_rsa_spec].
  rewrite rsa_key_pub by done. cbn. by rewrite HR.
Qed.

Theorem mapped_fragments ng thr nl nc certs MMD MRD d d' g c' m : keys_ok K -> bls_correct K -> go_int thr ->
  ng <= 1000 -> nl <= 1000 -> nc <= 1000 -> 2 <= ng ->
  generate_all ng thr nl nc certs MMD MRD = Some d -> map_all K t d = Some d' -> g ∈ dp_gossipers d' -> c' ∈ all_configs K d' ->
  exists f, cc_thr_sign (config_of K g) m = Some f /\ sf_id f = identity K g /\ cc_frag_verify c' m f = Accept.
Proof.
  intros H HB Ht Hg Hl Hc H2 E E' Ig Ic'. assert (fits ng nl nc) as F by done. destruct (mapped_inv _ _ _ _ _ _ _ _ _ H Ht F E E') as (-> & -> & D).
  apply in_all_mapped in Ic' as (k' & i' & He' & ->); [|done|done|done].
  unfold mapped_dep in Ig. cbn [dp_gossipers] in Ig. apply elem_of_list_fmap in Ig as (i & -> & I). apply elem_of_seq in I.
  unfold identity, config_of. cbn [mapped_go e_crypto]. unfold mcrypto. rewrite mapped_read by done.
  eexists. split; [reflexivity|]. split; [done|]. unfold cc_frag_verify, Crypto.bls_key.
  cbn [mapped cc_thr_scheme cc_bls_pubs sf_id sf_sign cc_self cc_bls_sec GenMore.sec_of].
  rewrite (renamed_at t (bls_maps ng).1); [|lia|by apply new_bls_spec].
  rewrite bls_maps_match. unfold GenFacts.gossip_key. destruct (bls_maps_some K bls_rand ng i) as [x ->]; [done|lia|]. cbn.
  by rewrite HB.
Qed.

(** Lists that name the entities of the mapped deployment. *)
Theorem mapped_lists ng thr nl nc certs MMD MRD d d' : keys_ok K -> go_int thr ->
  ng <= 1000 -> nl <= 1000 -> nc <= 1000 ->
  generate_all ng thr nl nc certs MMD MRD = Some d -> map_all K t d = Some d' ->
  let cas := map (identity K) (dp_cas d') in let loggers := map (identity K) (dp_loggers d') in
  let monitors := map (identity K) (dp_monitors d') in let gossipers := map (identity K) (dp_gossipers d') in
  Forall (λ e, cap_cas (e_pub e) = cas /\ cap_loggers (e_pub e) = loggers /\
               cav_monitors (e_priv e) = monitors /\ cav_gossipers (e_priv e) = gossipers /\ cav_signer (e_priv e) = identity K e) (dp_cas d') /\
  Forall (λ e, lgp_cas (e_pub e) = cas /\ lgp_loggers (e_pub e) = loggers /\
               lgv_monitors (e_priv e) = monitors /\ lgv_gossipers (e_priv e) = gossipers /\ lgv_signer (e_priv e) = identity K e) (dp_loggers d') /\
  Forall (λ e, mnp_cas (e_pub e) = cas /\ mnp_loggers (e_pub e) = loggers /\
               mnv_cas (e_priv e) = cas /\ mnv_loggers (e_priv e) = loggers /\ mnv_signer (e_priv e) = identity K e) (dp_monitors d') /\
  Forall (λ e, gop_gossipers (e_pub e) = gossipers /\ gop_signers (e_pub e) = monitors) (dp_gossipers d').
Proof.
  intros H Ht Hg Hl Hc E E'. destruct (mapped_identities _ _ _ _ _ _ _ _ _ H Ht Hg Hl Hc E E') as (-> & -> & -> & ->).
  assert (fits ng nl nc) as F by done. destruct (mapped_inv _ _ _ _ _ _ _ _ _ H Ht F E E') as (-> & -> & D).
  unfold mapped_dep. cbn [dp_cas dp_loggers dp_monitors dp_gossipers].
  split_and!; apply Forall_fmap, Forall_true; intros i; unfold compose, identity, config_of;
    cbn [mapped_ca mapped_lg mapped_mn mapped_go e_pub e_priv e_crypto]; rewrite ?mapped_self by done; done.
Qed.

Theorem mapped_connected ng thr nl nc certs MMD MRD d d' i e : keys_ok K -> go_int thr ->
  ng <= 1000 -> nl <= 1000 -> nc <= 1000 ->
  generate_all ng thr nl nc certs MMD MRD = Some d -> map_all K t d = Some d' -> dp_gossipers d' !! i = Some e ->
  NoDup (gov_connected (e_priv e)) /\
  forall u, u ∈ gov_connected (e_priv e) <-> exists j e', j <> i /\ dp_gossipers d' !! j = Some e' /\ u = identity K e'.
Proof.
  intros H Ht Hg Hl Hc E E' Ei. assert (fits ng nl nc) as F by done. destruct (mapped_inv _ _ _ _ _ _ _ _ _ H Ht F E E') as (-> & -> & D).
  unfold mapped_dep in *. cbn [dp_gossipers] in *.
  apply lookup_map_seq in Ei as [Hi ->]. cbn [mapped_go e_priv gov_connected]. split.
  - apply NoDup_fmap_2_strong.
    + intros a b Ia Ib Eab. apply elem_of_list_In, List.filter_In in Ia as [Ia _], Ib as [Ib _]. apply in_seq in Ia, Ib.
      apply address_inj in Eab as [_ Eab]; [done|lia|lia].
    + apply NoDup_ListNoDup, List.NoDup_filter, seq_NoDup.
  - intros u. rewrite elem_of_list_fmap. split.
    + intros (j & -> & I). apply elem_of_list_In, List.filter_In in I as [I N]. apply in_seq in I.
      apply negb_true_iff, Nat.eqb_neq in N. exists j, (mapped_go ng thr nl nc MMD j). split_and!; [congruence| |].
      * apply lookup_map_seq. split; [lia|done].
      * unfold identity, config_of. cbn [mapped_go e_crypto]. by rewrite mapped_self.
    + intros (j & e' & N & Ej & ->). apply lookup_map_seq in Ej as [Hj ->].
      exists j. split.
      * unfold identity, config_of. cbn [mapped_go e_crypto]. by rewrite mapped_self.
      * apply elem_of_list_In, List.filter_In. split; [apply in_seq; lia|]. apply negb_true_iff, Nat.eqb_neq. congruence.
Qed.

Theorem mapped_pairs ng thr nl nc certs MMD MRD d d' i m g : keys_ok K -> go_int thr ->
  ng <= 1000 -> nl <= 1000 -> nc <= 1000 ->
  generate_all ng thr nl nc certs MMD MRD = Some d -> map_all K t d = Some d' ->
  dp_monitors d' !! i = Some m -> dp_gossipers d' !! i = Some g ->
  mnv_gossiper (e_priv m) = identity K g /\
  (gov_owner (e_priv g) = identity K m <-> ip_of t KGossiper i = ip_of t KMonitor i).
Proof.
  intros H Ht Hg Hl Hc E E' Em Eg. assert (fits ng nl nc) as F by done. destruct (mapped_inv _ _ _ _ _ _ _ _ _ H Ht F E E') as (-> & -> & D).
  unfold mapped_dep in *. cbn [dp_gossipers dp_monitors] in *. apply lookup_map_seq in Em as [Hi ->], Eg as [_ ->].
  unfold identity, config_of. cbn [mapped_go mapped_mn e_crypto e_priv mnv_gossiper gov_owner].
  rewrite !mapped_self by done. split; [done|]. unfold address. split; [|by intros ->].
  apply app_inj_r.
Qed.

(** The loggers a CA is told to use, and the CAs a logger is told of. *)
Theorem mapped_ca_loggers ng thr nl nc certs MMD MRD d d' e : keys_ok K -> go_int thr ->
  ng <= 1000 -> nl <= 1000 -> nc <= 1000 ->
  generate_all ng thr nl nc certs MMD MRD = Some d -> map_all K t d = Some d' ->
  2 <= nl -> ip_of t KLogger 0 <> ip_of t KLogger (nl - 1) -> dp_cas d' !! 0 = Some e ->
  exists u, u ∈ cav_loggers (e_priv e) /\ u ∉ map (identity K) (dp_loggers d').
Proof.
  intros H Ht Hg Hl Hc E E' H2 N Ee. destruct (mapped_identities _ _ _ _ _ _ _ _ _ H Ht Hg Hl Hc E E') as (_ & -> & _ & _).
  assert (fits ng nl nc) as F by done. destruct (mapped_inv _ _ _ _ _ _ _ _ _ H Ht F E E') as (-> & -> & D).
  unfold mapped_dep in *. cbn [dp_cas] in *. apply lookup_map_seq in Ee as [Hi ->]. cbn [mapped_ca e_priv cav_loggers].
  eexists. split; [right; left|]. rewrite Nat.mod_0_l, Nat.sub_0_r by lia. intros I. apply elem_of_list_fmap in I as (j & Ej & I).
  apply elem_of_seq in I. assert (nl - 1 < 1000) as A by lia. assert (j < 1000) as B by lia.
  unfold address in Ej. pose proof Ej as Ej'. apply app_end_inj in Ej'; [|by rewrite !port_len].
  assert (port_postfix (nl - 1) = port_postfix j) as Ep by (apply app_inj_l in Ej'; unfold port in Ej'; by apply app_inj_l in Ej'). apply postfix_inj in Ep; [|done]. subst j.
  apply app_inj_r in Ej. done.
Qed.

Theorem mapped_lg_cas ng thr nl nc certs MMD MRD d d' : keys_ok K -> go_int thr ->
  ng <= 1000 -> nl <= 1000 -> nc <= 1000 ->
  generate_all ng thr nl nc certs MMD MRD = Some d -> map_all K t d = Some d' ->
  (forall i, ip_of t KCA i <> "localhost") ->
  Forall (λ e, length (lgv_cas (e_priv e)) = nc /\ forall u, u ∈ lgv_cas (e_priv e) -> u ∉ map (identity K) (dp_cas d')) (dp_loggers d').
Proof.
  intros H Ht Hg Hl Hc E E' N. destruct (mapped_identities _ _ _ _ _ _ _ _ _ H Ht Hg Hl Hc E E') as (-> & _ & _ & _).
  assert (fits ng nl nc) as F by done. destruct (mapped_inv _ _ _ _ _ _ _ _ _ H Ht F E E') as (-> & -> & D).
  unfold mapped_dep in *. cbn [dp_loggers] in *. apply Forall_fmap, Forall_true. intros i. unfold compose. cbn [mapped_lg e_priv lgv_cas].
  split; [apply urls_length|]. intros u I J. apply elem_of_list_fmap in I as (a & -> & Ia), J as (b & Eb & Ib). apply elem_of_seq in Ia, Ib.
  rewrite url_port in Eb. unfold address in Eb. change ("localhost:" ++ port KCA a) with ("localhost" ++ (":" ++ port KCA a)) in Eb.
  pose proof Eb as Eb'. apply app_end_inj in Eb'; [|by rewrite !port_len by lia]. rewrite Eb' in Eb. apply app_inj_r in Eb. by eapply N.
Qed.

End gen.

(* ---------------------------------------------------------------- *)
(** * The template of the IP tables *)

Lemma template_table mask off n i :
  (fold_left (λ m i, <[i := mask ++ itoa (Z.of_nat i + off)]> m) (seq 0 n) (∅ : gmap nat string)) !! i
  = if Nat.ltb i n then Some (mask ++ itoa (Z.of_nat i + off)) else None.
Proof.
  revert i. induction n as [|n IH]; intros i; [cbn; by rewrite lookup_empty|].
  rewrite seq_S, fold_left_app. cbn [fold_left]. rewrite Nat.add_0_l. destruct (decide (i = n)) as [->|N].
  - rewrite lookup_insert. by rewrite (proj2 (Nat.ltb_lt _ _)) by lia.
  - rewrite lookup_insert_ne by congruence. rewrite IH. destruct (Nat.ltb_spec i n), (Nat.ltb_spec i (S n)); try done; lia.
Qed.

Theorem template_ip nc nl nmg m1 o1 m2 o2 m3 o3 k i :
  ip_of (ip_template nc nl nmg m1 o1 m2 o2 m3 o3) k i =
  match k with
  | KCA => if Nat.ltb i nc then m1 ++ itoa (Z.of_nat i + o1) else ""
  | KLogger => if Nat.ltb i nl then m2 ++ itoa (Z.of_nat i + o2) else ""
  | KMonitor | KGossiper => if Nat.ltb i nmg then m3 ++ itoa (Z.of_nat i + o3) else ""
  end.
Proof. unfold ip_of, ip_template. destruct k; rewrite template_table; by destruct (Nat.ltb _ _). Qed.
