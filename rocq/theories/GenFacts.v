(** Proofs about generated deployments. *)
From Verif Require Import Bytes Hex Base64 Json CodecFacts JsonFacts Base64Facts Crypto CTngExt ClientMore.
From Verif Require Import CryptoIO IndentFacts SpecCryptoIO CryptoIOFacts Gen SpecGen.
From Coq Require Import Lia.
Open Scope string_scope.

(* ---------------------------------------------------------------- *)
(** * Names *)

Definition postfix_ok (i : nat) : bool :=
  Nat.eqb (len (port_postfix i)) 3 && match atoi (port_postfix i) with Some z => Z.eqb z (Z.of_nat i) | None => false end.

(** Port_Postfix is defined on the thousand numbers 0..999 only. *)
Lemma postfix_all : forallb postfix_ok (seq 0 1000) = true.
Proof. vm_compute. reflexivity. Qed.

Lemma postfix_spec i : i < 1000 -> len (port_postfix i) = 3 /\ atoi (port_postfix i) = Some (Z.of_nat i).
Proof.
  intros H. pose proof postfix_all as A. rewrite forallb_forall in A. specialize (A i).
  unfold postfix_ok in A. rewrite andb_true_iff in A. destruct A as [A B]; [apply in_seq; lia|].
  apply Nat.eqb_eq in A. split; [done|]. destruct (atoi (port_postfix i)) as [z|]; [|done].
  apply Z.eqb_eq in B. by subst.
Qed.

Lemma postfix_big i : 1000 <= i -> port_postfix i = "".
Proof.
  intros H. unfold port_postfix. rewrite (proj2 (Nat.ltb_ge i 10)), (proj2 (Nat.ltb_ge i 100)), (proj2 (Nat.ltb_ge i 1000)) by lia. done.
Qed.

Lemma postfix_inj i j : i < 1000 -> port_postfix i = port_postfix j -> i = j.
Proof.
  intros Hi E. destruct (postfix_spec i Hi) as [A B]. destruct (decide (j < 1000)) as [Hj|Hj].
  - destruct (postfix_spec j Hj) as [_ B']. rewrite E, B' in B. injection B as B. lia.
  - rewrite E, postfix_big in A by lia. done.
Qed.

Lemma url_inj k i j : i < 1000 -> url k i = url k j -> i = j.
Proof. unfold url. intros H E. apply app_inj_l in E. by apply postfix_inj. Qed.

Lemma url_kind k k' i j : url k i = url k' j -> k = k'.
Proof. unfold url. destruct k, k'; intros E; try done; discriminate E. Qed.

Lemma url_port k i : url k i = "localhost:" ++ port k i.
Proof. unfold url, port. by destruct k. Qed.

Lemma three s : len s = 3 -> exists a b c, s = String a (String b (String c "")).
Proof. destruct s as [|a [|b [|c [|d s]]]]; cbn; intros E; try done. eauto. Qed.

Lemma url_slices k i : i < 1000 ->
  kind_of (url k i) = Some k /\ last_n 5 (url k i) = Some (":" ++ port k i) /\
  last_n 3 (url k i) = Some (port_postfix i) /\ atoi0 (port_postfix i) = Z.of_nat i.
Proof.
  intros H. destruct (postfix_spec i H) as [A B]. apply three in A as (a & b & c & E).
  unfold atoi0. rewrite B. unfold url, port. rewrite E. by destruct k.
Qed.

Lemma url_slices_kind k i : i < 1000 -> kind_of (url k i) = Some k.
Proof. apply url_slices. Qed.

Lemma readdress_url t k' k i : i < 1000 -> readdress (ip_of t k' i) (url k i) = Some (ip_of t k' i ++ ":" ++ port k i).
Proof. intros H. unfold readdress. destruct (url_slices k i H) as (_ & -> & _). done. Qed.

Lemma readdress_any ip k i : i < 1000 -> readdress ip (url k i) = Some (ip ++ ":" ++ port k i).
Proof. intros H. unfold readdress. destruct (url_slices k i H) as (_ & -> & _). done. Qed.

Lemma port_len k i : i < 1000 -> len (":" ++ port k i) = 5.
Proof.
  intros H. destruct (postfix_spec i H) as [A _]. unfold port. rewrite !len_app, A. by destruct k.
Qed.

Lemma address_inj t k k' i j : i < 1000 -> j < 1000 -> address t k i = address t k' j -> k = k' /\ i = j.
Proof.
  intros Hi Hj E. unfold address in E. apply app_end_inj in E; [|by rewrite !port_len].
  injection E as E. unfold port in E. destruct k, k'; try discriminate E; injection E as E; by apply postfix_inj in E.
Qed.

Lemma ip_at_nat t k i : ip_at t k (Z.of_nat i) = ip_of t k i.
Proof. unfold ip_at. rewrite (proj2 (Z.ltb_ge _ _)) by lia. by rewrite Nat2Z.id. Qed.

Lemma ip_at_id t k i : ip_at t k (Z.of_nat (S i) - 1) = ip_of t k i.
Proof. replace (Z.of_nat (S i) - 1)%Z with (Z.of_nat i) by lia. apply ip_at_nat. Qed.

Lemma rekey_url t k i : i < 1000 -> rekey t (url k i) = Some (address t k i).
Proof.
  intros H. unfold rekey. destruct (url_slices k i H) as (-> & -> & -> & ->). rewrite ip_at_nat. done.
Qed.

Lemma reself_url t k i : i < 1000 -> reself t (url k i) (S i) = Some (address t k i).
Proof.
  intros H. unfold reself. destruct (url_slices k i H) as (-> & _). rewrite ip_at_id. by apply readdress_url.
Qed.

Lemma urls_lookup k n i : i < n -> urls k n !! i = Some (url k i).
Proof. intros H. unfold urls. rewrite list_lookup_fmap, lookup_seq_lt by done. done. Qed.

Lemma urls_length k n : length (urls k n) = n.
Proof. unfold urls. by rewrite map_length, seq_length. Qed.

(* ---------------------------------------------------------------- *)
(** * Tables keyed by URL *)

(** Entities from the thousandth on share one URL; a table keyed by URL
    keeps the last of them. *)
Definition rep (n i : nat) : nat := if Nat.ltb i 1000 then i else n - 1.

Lemma rep_small n i : i < 1000 -> rep n i = i.
Proof. intros H. unfold rep. by rewrite (proj2 (Nat.ltb_lt _ _)). Qed.

Lemma table_lookup {V} (k : kind) (f : nat -> V) n i : i < n ->
  fold_left (λ m i, <[url k i := f i]> m) (seq 0 n) (∅ : gmap string V) !! url k i = Some (f (rep n i)).
Proof.
  revert i. induction n as [|n IH]; intros i H; [lia|].
  rewrite seq_S, fold_left_app. cbn [fold_left]. rewrite Nat.add_0_l.
  destruct (decide (url k n = url k i)) as [E|N].
  - rewrite E, lookup_insert. f_equal. f_equal. unfold rep. destruct (Nat.ltb_spec i 1000).
    + symmetry in E. apply url_inj in E; [by symmetry|done].
    + lia.
  - rewrite lookup_insert_ne by done. destruct (decide (i = n)) as [->|Hi]; [done|].
    rewrite IH by lia. f_equal. f_equal. unfold rep. destruct (Nat.ltb_spec i 1000); [done|].
    exfalso. apply N. unfold url. by rewrite !postfix_big by lia.
Qed.

Lemma mapM_seq {A} (f : string -> option A) k n (g : nat -> A) :
  (forall i, i < n -> f (url k i) = Some (g i)) -> mapM f (urls k n) = Some (map g (seq 0 n)).
Proof.
  intros H. apply mapM_Some_2. unfold urls. apply Forall2_fmap_l, Forall2_fmap_r.
  apply Forall2_same_length_lookup_2; [done|]. intros i x y Ex Ey. rewrite Ex in Ey. injection Ey as <-.
  apply lookup_seq in Ex as [-> Hi]. apply H. lia.
Qed.

(* ---------------------------------------------------------------- *)
(** * The private configurations *)

Lemma ca_priv_at_some G M nl certs i : 0 < nl -> ca_priv_at G M (urls KLogger nl) certs i
  = Some (mkca_priv (url KCA i) (port KCA i) [url KLogger (i mod nl); url KLogger (nl - 1 - i mod nl)] M G certs).
Proof.
  intros H. unfold ca_priv_at. rewrite urls_length. assert (i mod nl < nl) by (apply Nat.mod_upper_bound; lia).
  rewrite !urls_lookup by lia. done.
Qed.

Lemma ca_priv_map_some G M nl certs is : 0 < nl -> forall m, ca_priv_map G M (urls KLogger nl) certs is m
  = Some (fold_left (λ m i, <[url KCA i := mkca_priv (url KCA i) (port KCA i) [url KLogger (i mod nl); url KLogger (nl - 1 - i mod nl)] M G certs]> m) is m).
Proof.
  intros H. induction is as [|i is IH]; intros m; [done|]. cbn [ca_priv_map fold_left].
  rewrite ca_priv_at_some by done. cbn [cav_signer]. apply IH.
Qed.

Lemma mn_priv_map_some n C L is : Forall (λ i, i < n) is -> forall m,
  mn_priv_map (urls KGossiper n) (urls KMonitor n) C L is m
  = Some (fold_left (λ m i, <[url KMonitor i := mkmn_priv C L (url KMonitor i) (url KGossiper i) (port KGossiper i) (port KMonitor i)]> m) is m).
Proof.
  induction is as [|i is IH]; intros F m; [done|]. inversion F; subst. cbn [mn_priv_map fold_left].
  rewrite !urls_lookup by done. by apply IH.
Qed.

Lemma go_priv_map_some n is : Forall (λ i, i < n) is -> forall m,
  go_priv_map (urls KGossiper n) (urls KMonitor n) is m
  = Some (fold_left (λ m i, <[url KGossiper i := mkgo_priv (connected (urls KGossiper n) i) (url KMonitor i) (port KGossiper i)]> m) is m).
Proof.
  induction is as [|i is IH]; intros F m; [done|]. inversion F; subst. cbn [go_priv_map fold_left].
  rewrite !urls_lookup by done. by apply IH.
Qed.

Lemma seq_lt n : Forall (λ i, i < n) (seq 0 n).
Proof. apply Forall_forall. intros i I. apply elem_of_seq in I. lia. Qed.

Lemma connected_urls n i : connected (urls KGossiper n) i = map (url KGossiper) (List.filter (λ j, negb (Nat.eqb i j)) (seq 0 n)).
Proof.
  unfold connected. rewrite urls_length.
  assert (Forall (λ j, j < n) (seq 0 n)) as F by apply seq_lt. revert F. generalize (seq 0 n). intros l F.
  induction l as [|j l IH]; [done|]. inversion F; subst. cbn [List.filter map]. cbn [omap list_omap].
  destruct (Nat.eqb i j); cbn [negb]; [by apply IH|]. rewrite urls_lookup by done. cbn [map]. f_equal. by apply IH.
Qed.

Section gen.
Context {P : prims} (K : keyio P).
Context (rsa_rand : nat -> rsa_sec P) (bls_rand : nat -> bls_sec P).

(* ---------------------------------------------------------------- *)
(** * Keys *)

Definition rsa_keys (ng nl nc : nat) := rsa_gen_all K rsa_rand (urls KGossiper ng) (urls KMonitor ng) (urls KCA nc) (urls KLogger nl).

Lemma rsa_keys_match ng nl nc id : (rsa_keys ng nl nc).1 !! id = rsa_pub_of K <$> (rsa_keys ng nl nc).2 !! id.
Proof.
  unfold rsa_keys, rsa_gen_all.
  match goal with |- context [rsa_gen K rsa_rand 0 ?l ∅ ∅] => pose proof (rsa_gen_match K rsa_rand l 0 ∅ ∅) as M;
    destruct (rsa_gen K rsa_rand 0 l ∅ ∅) as [a b] end.
  cbn. apply M. intros x. by rewrite !lookup_empty.
Qed.

(** Where an entity is in the deployment. *)
Definition exists_entity (ng nl nc : nat) (k : kind) (i : nat) : Prop :=
  match k with KCA => i < nc | KLogger => i < nl | KMonitor | KGossiper => i < ng end.

Lemma in_urls k n i : i < n -> url k i ∈ urls k n.
Proof. intros H. apply elem_of_list_lookup. exists i. by apply urls_lookup. Qed.

Lemma rsa_keys_some ng nl nc k i : exists_entity ng nl nc k i -> is_Some ((rsa_keys ng nl nc).2 !! url k i).
Proof.
  intros H. unfold rsa_keys, rsa_gen_all. apply rsa_gen_keeps. right. rewrite !elem_of_app.
  destruct k; cbn in H; eauto using in_urls.
Qed.

(** The RSA key of an entity. *)
Definition rsa_key (ng nl nc : nat) (k : kind) (i : nat) : rsa_sec P := default (rsa_sec0 K) ((rsa_keys ng nl nc).2 !! url k i).

Lemma rsa_key_pub ng nl nc k i : exists_entity ng nl nc k i ->
  (rsa_keys ng nl nc).1 !! url k i = Some (rsa_pub_of K (rsa_key ng nl nc k i)).
Proof.
  intros H. rewrite rsa_keys_match. unfold rsa_key. destruct (rsa_keys_some ng nl nc k i H) as [x ->]. done.
Qed.

Lemma rsa_gen_dom ids : forall i pubs privs id,
  is_Some ((rsa_gen K rsa_rand i ids pubs privs).1 !! id) -> is_Some (pubs !! id) \/ id ∈ ids.
Proof.
  induction ids as [|x ids IH]; intros i pubs privs id H; [by left|]. cbn [rsa_gen] in H. apply IH in H.
  destruct H as [H|H]; [|right; by right]. destruct (decide (id = x)) as [->|N]; [right; left|].
  rewrite lookup_insert_ne in H by done. by left.
Qed.

Lemma rsa_keys_dom ng nl nc id : is_Some ((rsa_keys ng nl nc).1 !! id) -> exists k i, id = url k i /\ exists_entity ng nl nc k i.
Proof.
  intros H. unfold rsa_keys, rsa_gen_all in H. apply rsa_gen_dom in H as [H|H].
  { rewrite lookup_empty in H. by destruct H. }
  rewrite !elem_of_app in H.
  destruct H as [H|[H|[H|H]]]; apply elem_of_list_lookup in H as [j H];
    pose proof (lookup_lt_Some _ _ _ H) as Hj; rewrite urls_length in Hj; rewrite urls_lookup in H by done; injection H as <-.
  - by exists KGossiper, j.
  - by exists KMonitor, j.
  - by exists KCA, j.
  - by exists KLogger, j.
Qed.

Definition bls_maps (ng : nat) : gmap string (bls_pub P) * gmap string (bls_sec P) :=
  default (∅, ∅) (threshold_keypairs K bls_rand (urls KGossiper ng) ng).

Lemma bls_maps_match ng id : (bls_maps ng).1 !! id = bls_pub_of K <$> (bls_maps ng).2 !! id.
Proof.
  unfold bls_maps, threshold_keypairs. destruct (Nat.ltb ng 2); [cbn; by rewrite !lookup_empty|]. cbn [default].
  match goal with |- context [bls_gen K bls_rand ?t 0 ?l ∅ ∅] => pose proof (bls_gen_match K bls_rand t l 0 ∅ ∅) as M;
    destruct (bls_gen K bls_rand t 0 l ∅ ∅) as [a b] end.
  cbn. apply M. intros x. by rewrite !lookup_empty.
Qed.

Lemma bls_maps_some ng i : 2 <= ng -> i < ng -> is_Some ((bls_maps ng).2 !! url KGossiper i).
Proof.
  intros H Hi. unfold bls_maps, threshold_keypairs. rewrite (proj2 (Nat.ltb_ge _ _)) by lia. cbn [default].
  apply bls_gen_keeps. right. by apply in_urls.
Qed.

Lemma bls_gen_dom t ids : forall i pubs privs id,
  is_Some ((bls_gen K bls_rand t i ids pubs privs).1 !! id) -> is_Some (pubs !! id) \/ id ∈ ids.
Proof.
  induction ids as [|x ids IH]; intros i pubs privs id H; [by left|]. cbn [bls_gen] in H. apply IH in H.
  destruct H as [H|H]; [|right; by right]. destruct (decide (id = x)) as [->|N]; [right; left|].
  rewrite lookup_insert_ne in H by done. by left.
Qed.

Lemma bls_maps_dom ng id : is_Some ((bls_maps ng).1 !! id) -> exists i, id = url KGossiper i /\ i < ng.
Proof.
  unfold bls_maps, threshold_keypairs. destruct (Nat.ltb ng 2); cbn [default]; intros H.
  { cbn in H. rewrite lookup_empty in H. by destruct H. }
  apply bls_gen_dom in H as [H|H]; [rewrite lookup_empty in H; by destruct H|].
  apply elem_of_list_lookup in H as [j H]. pose proof (lookup_lt_Some _ _ _ H) as Hj. rewrite urls_length in Hj.
  rewrite urls_lookup in H by done. injection H as <-. by exists j.
Qed.

(** The BLS key of a gossiper. *)
Definition gossip_key (ng i : nat) : bls_sec P := default (bls_sec0 K) ((bls_maps ng).2 !! url KGossiper i).

Lemma bls_gen_all_eq ng : bls_gen_all K bls_rand (urls KGossiper ng) =
  (bls_map_ser K (bls_maps ng).1,
   fold_left (λ m g, <[g := bls_sec_ser K (default (bls_sec0 K) ((bls_maps ng).2 !! g))]> m) (urls KGossiper ng) ∅).
Proof. unfold bls_gen_all, bls_maps. rewrite urls_length. by destruct (default _ _). Qed.

Lemma bls_secs_lookup ng i : i < ng ->
  default "" (fold_left (λ m g, <[g := bls_sec_ser K (default (bls_sec0 K) ((bls_maps ng).2 !! g))]> m) (urls KGossiper ng) (∅ : gmap string string) !! url KGossiper i)
  = bls_sec_ser K (gossip_key ng i).
Proof.
  intros H. unfold urls at 1. rewrite fold_map_l.
  rewrite (table_lookup KGossiper (λ i, bls_sec_ser K (default (bls_sec0 K) ((bls_maps ng).2 !! url KGossiper i)))) by done.
  cbn [default]. unfold gossip_key, rep. destruct (Nat.ltb_spec i 1000); [done|].
  unfold url. by rewrite !postfix_big by lia.
Qed.

(* ---------------------------------------------------------------- *)
(** * What is generated *)

(** The stored crypto configuration of an entity. *)
Definition stored_of (ng : nat) (thr : Z) (nl nc : nat) (k : kind) (i : nat) : scc (P:=P) :=
  mkscc (url k i) thr (Z.of_nat ng) 4 "rsa" "bls" (rsa_keys ng nl nc).1 (rsa_key ng nl nc k i) (bls_map_ser K (bls_maps ng).1)
    (match k with KGossiper => bls_sec_ser K (gossip_key ng i) | _ => "" end).

Definition file_of ng thr nl nc k i : string := gen_write (scc_json K (stored_of ng thr nl nc k i)).

Lemma crypto_map_lookup total thr k n i : i < n ->
  crypto_map K total thr k n !! url k i = Some (mkscc (url k i) thr (Z.of_nat total) 4 "rsa" "bls" ∅ (rsa_sec0 K) ∅ "").
Proof.
  intros H. unfold crypto_map.
  rewrite (table_lookup k (λ i, mkscc (url k i) thr (Z.of_nat total) 4 "rsa" "bls" ∅ (rsa_sec0 K) ∅ "")) by done.
  unfold rep. destruct (Nat.ltb_spec i 1000); [done|]. unfold url. by rewrite !postfix_big by lia.
Qed.

Lemma entity_crypto_eq ng thr nl nc k n i bsec : i < n -> exists_entity ng nl nc k i ->
  bsec = (match k with KGossiper => bls_sec_ser K (gossip_key ng i) | _ => "" end) ->
  entity_crypto K (crypto_map K ng thr k n) (rsa_keys ng nl nc).1 (rsa_keys ng nl nc).2 (bls_map_ser K (bls_maps ng).1) bsec (url k i)
  = Some (file_of ng thr nl nc k i).
Proof.
  intros Hi He ->. unfold entity_crypto, file_of, stored_of, rsa_key.
  destruct (rsa_keys_some ng nl nc k i He) as [x ->]. rewrite crypto_map_lookup by done. done.
Qed.

Definition gen_ca ng thr nl nc certs MMD (i : nat) : entity ca_pub ca_priv :=
  mkentity (ca_pub_of (urls KLogger nl) (urls KCA nc) MMD MMD)
    (mkca_priv (url KCA (rep nc i)) (port KCA (rep nc i)) [url KLogger (rep nc i mod nl); url KLogger (nl - 1 - rep nc i mod nl)]
       (urls KMonitor ng) (urls KGossiper ng) certs) (file_of ng thr nl nc KCA i).
Definition gen_lg ng thr nl nc MMD (i : nat) : entity lg_pub lg_priv :=
  mkentity (lg_pub_of (urls KLogger nl) (urls KCA nc) MMD MMD)
    (mklg_priv (url KLogger (rep nl i)) (port KLogger (rep nl i)) (urls KCA nc) (urls KMonitor ng) (urls KGossiper ng)) (file_of ng thr nl nc KLogger i).
Definition gen_mn ng thr nl nc MMD (i : nat) : entity mn_pub mn_priv :=
  mkentity (mn_pub_of (urls KLogger nl) (urls KCA nc) MMD MMD 5)
    (mkmn_priv (urls KCA nc) (urls KLogger nl) (url KMonitor (rep ng i)) (url KGossiper (rep ng i)) (port KGossiper (rep ng i)) (port KMonitor (rep ng i))) (file_of ng thr nl nc KMonitor i).
Definition gen_go ng thr nl nc MMD (i : nat) : entity go_pub go_priv :=
  mkentity (go_pub_of (urls KGossiper ng) (urls KMonitor ng) MMD MMD 5)
    (mkgo_priv (connected (urls KGossiper ng) (rep ng i)) (url KMonitor (rep ng i)) (port KGossiper (rep ng i))) (file_of ng thr nl nc KGossiper i).

Definition gen_dep ng thr nl nc certs MMD : deployment :=
  mkdep (map (gen_ca ng thr nl nc certs MMD) (seq 0 nc)) (map (gen_lg ng thr nl nc MMD) (seq 0 nl))
        (map (gen_mn ng thr nl nc MMD) (seq 0 ng)) (map (gen_go ng thr nl nc MMD) (seq 0 ng)).

Lemma generate_all_eq ng thr nl nc certs MMD MRD : 0 < nl \/ nc = 0 ->
  generate_all K rsa_rand bls_rand ng thr nl nc certs MMD MRD = Some (gen_dep ng thr nl nc certs MMD).
Proof.
  intros H. unfold generate_all.
  change (rsa_gen_all K rsa_rand (urls KGossiper ng) (urls KMonitor ng) (urls KCA nc) (urls KLogger nl)) with (rsa_keys ng nl nc).
  rewrite bls_gen_all_eq. rewrite (surjective_pairing (rsa_keys ng nl nc)).
  rewrite mn_priv_map_some, go_priv_map_some by apply seq_lt.
  assert (exists cav, ca_priv_map (urls KGossiper ng) (urls KMonitor ng) (urls KLogger nl) certs (seq 0 nc) ∅ = Some cav /\
    forall i, i < nc -> cav !! url KCA i = Some (e_priv (gen_ca ng thr nl nc certs MMD i))) as (cav & -> & Hcav).
  { destruct H as [H| ->].
    - eexists. split; [by apply ca_priv_map_some|]. intros i Hi.
      rewrite (table_lookup KCA (λ i, mkca_priv (url KCA i) (port KCA i) [url KLogger (i mod nl); url KLogger (nl - 1 - i mod nl)] (urls KMonitor ng) (urls KGossiper ng) certs)) by done. done.
    - exists ∅. split; [done|]. intros i Hi. lia. }
  rewrite (mapM_seq _ KCA nc (gen_ca ng thr nl nc certs MMD)).
  2: { intros i Hi. unfold build. rewrite Hcav by done. rewrite entity_crypto_eq by done. done. }
  rewrite (mapM_seq _ KLogger nl (gen_lg ng thr nl nc MMD)).
  2: { intros i Hi. unfold build, lg_priv_map.
       rewrite (table_lookup KLogger (λ i, mklg_priv (url KLogger i) (port KLogger i) (urls KCA nc) (urls KMonitor ng) (urls KGossiper ng))) by done.
       rewrite entity_crypto_eq by done. done. }
  rewrite (mapM_seq _ KMonitor ng (gen_mn ng thr nl nc MMD)).
  2: { intros i Hi. unfold build.
       rewrite (table_lookup KMonitor (λ i, mkmn_priv (urls KCA nc) (urls KLogger nl) (url KMonitor i) (url KGossiper i) (port KGossiper i) (port KMonitor i))) by done.
       rewrite entity_crypto_eq by done. done. }
  rewrite (mapM_seq _ KGossiper ng (gen_go ng thr nl nc MMD)).
  2: { intros i Hi. unfold build.
       rewrite (table_lookup KGossiper (λ i, mkgo_priv (connected (urls KGossiper ng) i) (url KMonitor i) (port KGossiper i))) by done.
       rewrite bls_secs_lookup by done. rewrite entity_crypto_eq by done. done. }
  done.
Qed.

Lemma generate_all_none ng thr nc certs MMD MRD : 0 < nc ->
  generate_all K rsa_rand bls_rand ng thr 0 nc certs MMD MRD = None.
Proof.
  intros H. unfold generate_all. destruct (rsa_gen_all _ _ _ _ _ _), (bls_gen_all _ _ _).
  destruct nc as [|nc]; [lia|]. done.
Qed.

Lemma generated_eq ng thr nl nc certs MMD MRD d : generate_all K rsa_rand bls_rand ng thr nl nc certs MMD MRD = Some d ->
  (0 < nl \/ nc = 0) /\ d = gen_dep ng thr nl nc certs MMD.
Proof.
  intros E. assert (0 < nl \/ nc = 0) as H.
  { destruct nl; [|lia]. destruct nc; [lia|]. rewrite generate_all_none in E by lia. done. }
  split; [done|]. rewrite generate_all_eq in E by done. by injection E as <-.
Qed.

End gen.
