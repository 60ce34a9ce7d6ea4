(** Proofs about loggers. *)
From Verif Require Import Bytes Hex Json Types Crypto Verify Merkle Cert CertPool CTngExt Clock Logger SpecCodec SpecVerify SpecCert SpecLogger
  CodecFacts JsonFacts WireFacts CryptoFacts VerifyFacts MerkleFacts CertFacts.
From Coq Require Import Lia.
Open Scope string_scope.

Lemma itoa_not0 z w : "0" ++ itoa w <> itoa z.
Proof.
  intros H. destruct (itoa_shape z) as (sg & ip & E & [-> | ->] & _ & _ & Hl).
  - rewrite E in H. cbn in H. rewrite <- H in Hl. destruct (itoa_shape w) as (sw & iw & Ew & _ & _ & Hn & _). rewrite Ew in Hl.
    destruct sw; [destruct iw|]; done.
  - rewrite E in H. done.
Qed.

Lemma pad2_inj a b : pad2 a = pad2 b -> a = b.
Proof.
  unfold pad2. destruct (Nat.ltb a 10), (Nat.ltb b 10); intros H.
  - apply app_inj_l, itoa_inj in H. lia.
  - by apply itoa_not0 in H.
  - symmetry in H. by apply itoa_not0 in H.
  - apply itoa_inj in H. lia.
Qed.

Section facts.
Context {P : prims} (c : lconf P) (up : string -> bool).

(** ** Behaviour *)
Lemma rem_every k n : k <> 0%Z -> Z.eqb (Z.rem n k) 0 = true <-> every k n.
Proof. intros Hk. rewrite Z.eqb_eq. rewrite Z.rem_divide by done. done. Qed.

Lemma request_configured s m b : l_interval s <> 0%Z ->
  configured (l_type s) (l_interval s) (l_online s) (l_count s + 1) b ->
  snd (request_sth s m) = shown s m b.
Proof.
  intros Hk Hb. unfold request_sth. cbn [snd set_l_count l_type l_interval l_count l_online l_sth l_fake].
  pose proof (rem_every (l_interval s) (l_count s + 1) Hk) as Hr.
  set (hit := Z.eqb (Z.rem _ _) 0) in *. apply Z.eqb_neq in Hk. rewrite Hk.
  assert (forall Q : Prop, (Z.eqb (l_online s) 1 = true <-> l_online s = 1%Z)) as H1 by (intros; apply Z.eqb_eq). specialize (H1 True).
  destruct Hb as [E|[E|E] Hn Ha|[E|E] Hn|E|E Hn|E Hn|E Ha|E Ha|E Hn Ha|E Hn]; rewrite E; cbn [shown l_sth];
    destruct hit; destruct (Z.eqb (l_online s) 1); cbn [andb orb]; try done; exfalso; intuition congruence.
Qed.

Lemma configured_total ty k a n : k <> 0%Z -> (0 <= ty <= 6)%Z -> exists b, configured ty k a n b.
Proof.
  intros Hk Ht. destruct (Z.eqb (Z.rem n k) 0) eqn:Ee.
  - apply rem_every in Ee; [|done]. destruct (Z.eqb_spec a 1) as [Ha|Ha];
    assert (ty = 0 \/ ty = 1 \/ ty = 2 \/ ty = 3 \/ ty = 4 \/ ty = 5 \/ ty = 6)%Z as [E|[E|[E|[E|[E|[E|E]]]]]] by lia;
    eexists; solve [eapply cfg_normal; eauto | eapply cfg_never; eauto | eapply cfg_split; eauto | eapply cfg_some; eauto | eapply cfg_second; eauto
      | eapply cfg_some2; eauto | eapply cfg_split_ok; [eauto|]; intros []; done | eapply cfg_second_ok; eauto | eapply cfg_some2_ok; [eauto|]; intros []; done].
  - assert (~ every k n) as Hn by (rewrite <- rem_every by done; by rewrite Ee). destruct (Z.eqb_spec a 1) as [Ha|Ha];
    assert (ty = 0 \/ ty = 1 \/ ty = 2 \/ ty = 3 \/ ty = 4 \/ ty = 5 \/ ty = 6)%Z as [E|[E|[E|[E|[E|[E|E]]]]]] by lia;
    eexists; solve [eapply cfg_normal; eauto | eapply cfg_never; eauto | eapply cfg_some; eauto | eapply cfg_second; eauto
      | eapply cfg_split_ok; [eauto|]; intros []; done | eapply cfg_second_ok; eauto | eapply cfg_some2_ok; [eauto|]; intros []; done | eapply cfg_some_ok; [eauto|]; intros []; done].
Qed.

(** Counters of a run. *)
Lemma publish_fields s t t1 t2 s' ms ok : publish c up s t t1 t2 = (s', ms, ok) ->
  l_pool s' = l_pool s /\ l_type s' = l_type s /\ l_interval s' = l_interval s /\ l_count s' = l_count s /\ l_online s' = l_online s /\
  (forall k, k <> pad2 (S (n_minute t)) -> l_sth s' !! k = l_sth s !! k /\ l_fake s' !! k = l_fake s !! k).
Proof.
  unfold publish. destruct (build_tree c (get_certs (l_pool s)) t1 _) as [[[g root] pois]|]; [|by intros [= <- <- <-]].
  destruct (get_certs (l_pool s)) as [|x r]; [by intros [= <- <- <-]|].
  destruct (build_tree c _ t2 _) as [[[fk ?] ?]|]; [|by intros [= <- <- <-]].
  destruct (send_pois _ _ _ _) as [ms' ok']. intros [= <- <- <-]. cbn. split_and!; auto.
  intros k Hk. by rewrite !lookup_insert_ne.
Qed.

Definition counters (l : list levent) (n0 a0 : Z) : Z * Z :=
  fold_left (λ '(n, a) e, match e with
                               | Ask _ => (n + 1, a)
                               | EndPeriod => (0, if 0 <? n then a + 1 else a)
                               | _ => (n, a)
                               end)%Z l (n0, a0).

Lemma lives_counters s l s' o : lives c up s l s' o ->
  l_type s' = l_type s /\ l_interval s' = l_interval s /\ (l_count s', l_online s') = counters l (l_count s) (l_online s).
Proof.
  induction 1 as [|s e s1 o1 l s2 o2 Hs Hl (IH1 & IH2 & IH3)]; [done|]. unfold counters in *. cbn [fold_left].
  destruct e as [crt|m|t t1 t2|]; cbn [logger_step] in Hs.
  - injection Hs as <- <-. by rewrite IH1, IH2, IH3.
  - destruct (request_sth s m) as [s3 r] eqn:E. injection Hs as <- <-. unfold request_sth in E. injection E as <- _.
    by rewrite IH1, IH2, IH3.
  - destruct (publish c up s t t1 t2) as [[s3 ms] ok] eqn:E. injection Hs as <- <- ->. apply publish_fields in E as (_ & H1 & H2 & H3 & H4 & _).
    rewrite IH1, IH2, IH3, H1, H2, H3, H4. done.
  - injection Hs as <- <-. by rewrite IH1, IH2, IH3.
Qed.

Lemma counters_asked l : fst (counters l 0 0) = asked l.
Proof.
  unfold counters, asked.
  enough (forall n a, fst (fold_left (λ '(n, a) e, match e with Ask _ => (n + 1, a) | EndPeriod => (0, if 0 <? n then a + 1 else a) | _ => (n, a) end)%Z l (n, a)) =
    fold_left (λ n e, match e with Ask _ => n + 1 | EndPeriod => 0 | _ => n end)%Z l n) as H by apply H.
  induction l as [|e l IH]; intros n a; [done|]. cbn [fold_left]. destruct e; apply IH.
Qed.

Lemma reply_configured ty k l s o m b : k <> 0%Z -> lives c up (logger_init ty k) l s o ->
  configured ty k (active_periods l) (asked l + 1) b -> snd (request_sth s m) = shown s m b.
Proof.
  intros Hk Hl Hb. apply lives_counters in Hl as (H1 & H2 & H3). cbn in H1, H2, H3.
  assert (l_count s = asked l) as E1 by (rewrite <- counters_asked, <- H3; done).
  assert (l_online s = active_periods l) as E2 by (change (active_periods l) with (snd (counters l 0 0)); by rewrite <- H3).
  apply request_configured; rewrite H2; [done|]. by rewrite H1, E1, E2.
Qed.

Lemma reply_normal k l s o m : lives c up (logger_init 0 k) l s o -> snd (request_sth s m) = shown s m Honest.
Proof. intros Hl. apply lives_counters in Hl as (H1 & _). unfold request_sth. cbn. rewrite H1. done. Qed.

(** ** Stability *)
Lemma lives_sth m s l s' o : lives c up s l s' o -> no_publish_for m l ->
  l_sth s' !! pad2 m = l_sth s !! pad2 m /\ l_fake s' !! pad2 m = l_fake s !! pad2 m.
Proof.
  induction 1 as [|s e s1 o1 l s2 o2 Hs Hl IH]; [done|]. intros Hn.
  destruct IH as [-> ->]. { intros t t1 t2 Hi. eapply Hn. by right. }
  destruct e as [crt|m'|t t1 t2|]; cbn [logger_step] in Hs.
  - injection Hs as <- <-. done.
  - destruct (request_sth s m') as [s3 r] eqn:E. injection Hs as <- <-. unfold request_sth in E. injection E as <- _. done.
  - destruct (publish c up s t t1 t2) as [[s3 ms] ok] eqn:E. injection Hs as <- <- ->. apply publish_fields in E as (_ & _ & _ & _ & _ & Hk).
    apply Hk. intros Hp%pad2_inj. apply (Hn t t1 t2); [by left|done].
  - injection Hs as <- <-. done.
Qed.

Lemma same_answer k l s o l' s' o' m : lives c up (logger_init 0 k) l s o -> lives c up s l' s' o' -> no_publish_for m l' ->
  exists g, snd (request_sth s m) = Answer g /\ snd (request_sth s' m) = Answer g.
Proof.
  intros H1 H2 Hn. exists (obj_at (l_sth s) (pad2 m)).
  assert (l_type s = 0%Z) as T1 by (by apply lives_counters in H1 as (-> & _)).
  assert (l_type s' = 0%Z) as T2 by (apply lives_counters in H2 as (-> & _); done).
  unfold request_sth. cbn. rewrite T1, T2. split; [done|]. unfold obj_at. by destruct (lives_sth _ _ _ _ _ H2 Hn) as [-> _].
Qed.

(** ** Publication *)
Lemma build_tree_some certs t period : 2 <= length certs ->
  exists tr, new_tree (h_sha256 P) (map c_subject certs) = Some tr /\
    build_tree c certs t period = Some (sth_object c t (mt_root tr) (length certs) period, mt_root tr,
            map (λ '(p, crt), mkpoi (Some p) (c_ski crt) (c_issuer_cn crt) (lc_signer c)) (combine (mt_proofs tr) certs)).
Proof.
  intros Hl. destruct (proj1 (new_tree_some (h_sha256 P) (map c_subject certs))) as [tr Ht]; [by rewrite map_length|].
  exists tr. split; [done|]. unfold build_tree. by rewrite Ht.
Qed.

Lemma publish_spec s t t1 t2 : 2 <= length (get_certs (l_pool s)) ->
  exists s' ms ok tr, publish c up s t t1 t2 = (s', ms, ok) /\
    new_tree (h_sha256 P) (map c_subject (get_certs (l_pool s))) = Some tr /\
    let g := sth_object c t1 (mt_root tr) (length (get_certs (l_pool s))) (S (n_minute t)) in
    l_sth s' = <[pad2 (S (n_minute t)) := g]> (l_sth s) /\ l_type s' = l_type s /\
    l_pool s' = l_pool s /\
    ms = (map (λ ca, SthTo ca g) (lc_cas c) ++
       (send_pois (P:=P) up s' (mt_root tr) (map (λ '(p, crt), mkpoi (Some p) (c_ski crt) (c_issuer_cn crt) (lc_signer c)) (combine (mt_proofs tr) (get_certs (l_pool s))))).1)%list /\
    ok = (send_pois (P:=P) up s' (mt_root tr) (map (λ '(p, crt), mkpoi (Some p) (c_ski crt) (c_issuer_cn crt) (lc_signer c)) (combine (mt_proofs tr) (get_certs (l_pool s))))).2.
Proof.
  intros Hl. destruct (build_tree_some _ t1 (S (n_minute t)) Hl) as (tr & Ht & Hb). unfold publish. rewrite Hb.
  destruct (get_certs (l_pool s)) as [|x r] eqn:E; [cbn in Hl; lia|].
  destruct (build_tree_some ((x :: r) ++ [x])%list t2 (S (n_minute t))) as (tr2 & Ht2 & Hb2); [rewrite app_length; lia|].
  rewrite Hb2. destruct (send_pois _ _ _ _) as [ms ok] eqn:Es.
  eexists _, _, _, tr. split; [reflexivity|]. split; [done|]. cbn [l_sth l_type l_pool]. rewrite Es. auto.
Qed.

Lemma publish_small s t t1 t2 : length (get_certs (l_pool s)) < 2 -> publish c up s t t1 t2 = (s, [], false).
Proof.
  intros Hl. unfold publish, build_tree. destruct (new_tree _ _) eqn:E; [|done].
  assert (is_Some (new_tree (h_sha256 P) (map c_subject (get_certs (l_pool s))))) as H by eauto.
  apply new_tree_some in H. rewrite map_length in H. lia.
Qed.

(** Reading the root back from the published object. *)
Lemma root_readable t root size period : extract_root_hash (sth_object c t root size period) = Some root.
Proof.
  unfold extract_root_hash, sth_object. cbn [g_p1]. rewrite hex_roundtrip, sth_roundtrip. cbn [sth_root tree_head]. by rewrite hex_roundtrip.
Qed.

(** ** Delivery of proofs *)
Lemma find_unique (l : list cert) i x k : ski_unique l -> l !! i = Some x -> c_ski x = k -> k <> "" ->
  find (λ d, String.eqb (c_ski d) k) l = Some x.
Proof.
  revert i. induction l as [|d l IH]; intros i Hd Hx Hk Hn; [done|]. cbn [find].
  destruct (String.eqb_spec (c_ski d) k) as [E|E].
  - assert (0 = i) as <-. { apply (Hd 0 i d x); [done|done|congruence|congruence]. } by injection Hx as ->.
  - destruct i as [|i]; [injection Hx as ->; by rewrite Hk in E|]. eapply (IH i); try done.
    intros a b y y' Ha Hb Hy Hn'. assert (S a = S b) by (by apply (Hd (S a) (S b) y y')). lia.
Qed.

Definition keyed (pc : proof * cert) : bool := negb (is_empty (c_ski (snd pc))).
Lemma send_pois_all s root certs proofs : indexed (l_pool s) -> ski_unique (p_certs (l_pool s)) ->
  (forall x, x ∈ p_certs (l_pool s) -> c_ski x <> "" -> up (c_issuer_cn x) = true) ->
  (forall x, x ∈ certs -> x ∈ p_certs (l_pool s)) ->
  Forall2 (λ p x, verify_proof (h_sha256 P) (c_subject x) (Some p) root = true) proofs certs ->
  send_pois (P:=P) up s root (map (λ '(p, crt), mkpoi (Some p) (c_ski crt) (c_issuer_cn crt) (lc_signer c)) (combine proofs certs)) =
  (map (λ '(p, crt), PoiTo (c_issuer_cn crt) (mkpoi (Some p) (c_ski crt) (c_issuer_cn crt) (lc_signer c))) (List.filter keyed (combine proofs certs)), true).
Proof.
  intros HI Hd Hu Hs Hv. induction Hv as [|p x proofs certs Hpx Hv IH]; [done|].
  cbn [combine map send_pois List.filter]. cbn [poi_ski poi_issuer poi_proof]. unfold keyed at 1. cbn [snd].
  assert (x ∈ p_certs (l_pool s)) as Hx by (apply Hs; by left).
  destruct (is_empty (c_ski x)) eqn:Ee; cbn [negb]; [rewrite IH; [done|]; intros y Hy; apply Hs; by right|].
  assert (c_ski x <> "") as Hk by (intros Q; rewrite Q in Ee; done). pose proof (Hu x Hx Hk) as Hup.
  rewrite get_by_ski_spec by done. rewrite Ee.
  apply elem_of_list_lookup in Hx as [i Hi]. rewrite (find_unique _ i x _ Hd Hi) by done. rewrite Hpx, Hup.
  rewrite IH; [done|]. intros y Hy. apply Hs. by right.
Qed.
End facts.

Lemma combine_nth {A B} (l : list A) (l' : list B) i a b : l !! i = Some a -> l' !! i = Some b -> combine l l' !! i = Some (a, b).
Proof. revert l' i. induction l as [|x l IH]; intros [|y l'] [|i]; cbn; try done; [by intros [= ->] [= ->]|apply IH]. Qed.

Section delivery.
Context {P : prims} (c : lconf P) (up : string -> bool).

Lemma submit_pool s l : l_pool (submit_all s l) = fold_left add_cert (map tbs_certificate l) (l_pool s).
Proof. unfold submit_all. revert s. induction l as [|x l IH]; intros s; [done|]. cbn. by rewrite IH. Qed.

Lemma submit_certs s l : l_pool s = new_pool -> get_certs (l_pool (submit_all s l)) = first_copies (map tbs_certificate l).
Proof. intros E. rewrite submit_pool, E. apply (add_all_spec (map tbs_certificate l)). Qed.

Lemma submit_indexed s l : l_pool s = new_pool -> indexed (l_pool (submit_all s l)).
Proof. intros E. rewrite submit_pool, E. apply (add_all_spec (map tbs_certificate l)). Qed.

Lemma first_copies_distinct l : NoDup (map c_subject l) -> first_copies l = l.
Proof.
  induction l as [|x l IH] using rev_ind; [done|]. rewrite map_app. intros (H1 & H2 & _)%NoDup_app.
  unfold first_copies in *. rewrite fold_left_app. cbn [fold_left]. rewrite IH by done.
  destruct (existsb (same_cert x) l) eqn:E; [|done]. exfalso.
  apply existsb_exists in E as (d & Hd & Hs). apply andb_true_iff in Hs as [Hs _]. apply String.eqb_eq in Hs.
  apply (H2 (c_subject d)); [apply elem_of_list_fmap; exists d; by rewrite elem_of_list_In|]. rewrite <- Hs. by left.
Qed.

(** The subjects in the pool are exactly the submitted ones. *)
Lemma submitted_subject s l x : l_pool s = new_pool -> x ∈ l ->
  c_subject x ∈ map c_subject (get_certs (l_pool (submit_all s l))).
Proof.
  intros E Hx. rewrite submit_certs by done. destruct (first_copies_facts (map tbs_certificate l)) as (_ & H & _).
  destruct (H (tbs_certificate x)) as (d & Hd & Hs & _); [by apply elem_of_list_fmap_1|].
  apply elem_of_list_fmap. exists d. split; [by rewrite Hs|done].
Qed.

Lemma publish_proofs s t t1 t2 : indexed (l_pool s) -> 2 <= length (p_certs (l_pool s)) ->
  ski_unique (p_certs (l_pool s)) -> (forall x, x ∈ p_certs (l_pool s) -> c_ski x <> "" -> up (c_issuer_cn x) = true) ->
  exists s' ms g root, publish c up s t t1 t2 = (s', ms, true) /\
    l_sth s' !! pad2 (S (n_minute t)) = Some g /\ extract_root_hash g = Some root /\
    (forall ca, ca ∈ lc_cas c -> SthTo ca g ∈ ms) /\
    forall x, x ∈ p_certs (l_pool s) -> c_ski x <> "" -> exists p, PoiTo (c_issuer_cn x) (mkpoi (Some p) (c_ski x) (c_issuer_cn x) (lc_signer c)) ∈ ms /\
      verify_proof (h_sha256 P) (c_subject x) (Some p) root = true.
Proof.
  intros HI Hl Hd Hu. destruct (publish_spec c up s t t1 t2 Hl) as (s' & ms & ok & tr & Hp & Ht & Hst & _ & Hpl & Hms & Hok).
  cbn zeta in *. unfold get_certs in *.
  assert (Forall2 (λ p x, verify_proof (h_sha256 P) (c_subject x) (Some p) (mt_root tr) = true) (mt_proofs tr) (p_certs (l_pool s))) as Hv.
  { apply Forall2_same_length_lookup. split.
    - rewrite (proofs_length _ _ _ Ht). apply map_length.
    - intros i p x Hpi Hxi. destruct (proofs_verify (h_sha256 P) (map c_subject (p_certs (l_pool s))) tr i (c_subject x) Ht) as (q & Hq & Hv).
      + by rewrite list_lookup_fmap, Hxi.
      + rewrite Hq in Hpi. injection Hpi as ->. done. }
  rewrite (send_pois_all c up s' (mt_root tr) (p_certs (l_pool s)) (mt_proofs tr)) in Hms, Hok; rewrite ?Hpl; auto.
  cbn in Hms, Hok. subst ok. eexists _, ms, _, (mt_root tr). split; [exact Hp|]. split; [rewrite Hst; apply lookup_insert|].
  split; [apply root_readable|]. split.
  - intros ca Hca. rewrite Hms. apply elem_of_app. left. apply elem_of_list_fmap. eauto.
  - intros x Hx Hk. apply elem_of_list_lookup in Hx as [i Hi].
    destruct (Forall2_lookup_r _ _ _ _ _ Hv Hi) as (p & Hpi & Hvi). exists p. split; [|done].
    rewrite Hms. apply elem_of_app. right. apply elem_of_list_fmap. exists (p, x). split; [done|].
    apply elem_of_list_In, filter_In. split.
    + apply elem_of_list_In. eapply elem_of_list_lookup_2. by apply combine_nth.
    + unfold keyed. cbn [snd]. destruct (is_empty (c_ski x)) eqn:E; [by apply is_empty_eq in E|done].
Qed.

(** ** Availability *)
Lemma available k l s o t t1 t2 s1 ms l' s' o' : lives c up (logger_init 0 k) l s o ->
  publish c up s t t1 t2 = (s1, ms, true) -> lives c up s1 l' s' o' -> no_publish_for (S (n_minute t)) l' ->
  exists g root, snd (request_sth s' (S (n_minute t))) = Answer g /\ g_type g = STH_INIT /\ g_period g = unpadded (S (n_minute t)) /\
    g_signer g = lc_signer c /\ extract_root_hash g = Some root /\
    exists tr, new_tree (h_sha256 P) (map c_subject (get_certs (l_pool s))) = Some tr /\ mt_root tr = root.
Proof.
  intros H1 Hp H2 Hn.
  destruct (le_lt_dec 2 (length (get_certs (l_pool s)))) as [Hl|Hl]; [|rewrite publish_small in Hp by done; done].
  destruct (publish_spec c up s t t1 t2 Hl) as (s1' & ms' & ok & tr & Hp' & Ht & Hst & Hty & _). rewrite Hp in Hp'. injection Hp' as <- <- <-.
  assert (l_type s = 0%Z) as T1 by (by apply lives_counters in H1 as (-> & _)).
  assert (l_type s' = 0%Z) as T2 by (apply lives_counters in H2 as (-> & _); congruence).
  destruct (lives_sth _ _ _ _ _ _ _ H2 Hn) as [Hs _]. cbn zeta in *.
  eexists _, (mt_root tr). split.
  - unfold request_sth. cbn. rewrite T2. unfold obj_at. cbn. rewrite Hs, Hst, lookup_insert. reflexivity.
  - split_and!; try done; [apply root_readable|]. eauto.
Qed.

(** The published object verifies for whoever has the logger's key. *)
Lemma sth_verifies (cc : cconf P) pk t root size period : cc_sign_scheme cc = "rsa" ->
  cc_rsa_pubs cc !! lc_signer c = Some pk -> lc_signer c <> "" -> plain_id (lc_signer c) = true ->
  (forall m, rsa_check pk m (rsa_sign (lc_key c) m) = true) -> verify cc (sth_object c t root size period) = Accept.
Proof.
  intros Hsc Hpk Hne Hpl Hok. apply verify_iff. left. split_and!; try done; [by left|].
  exists (mkrsasig (rsa_sign (lc_key c) (covered (sth_object c t root size period))) (lc_signer c)), pk.
  split_and!; try done. + by apply rsasig_roundtrip.
  + apply Hok.
Qed.
End delivery.

Section histories.
Context {P : prims} (c : lconf P) (up : string -> bool).

Lemma lives_pool s l s' o : lives c up s l s' o -> EndPeriod ∉ l ->
  l_pool s' = fold_left add_cert (map tbs_certificate (submitted l)) (l_pool s).
Proof.
  induction 1 as [|s e s1 o1 l s2 o2 Hs Hl IH]; [done|]. intros Hn. rewrite IH by (intros Hi; apply Hn; by right). clear IH.
  destruct e as [crt|m'|t t1 t2|]; cbn [logger_step] in Hs; unfold submitted; cbn [map concat].
  - injection Hs as <- <-. done.
  - destruct (request_sth s m') as [s3 r] eqn:E. injection Hs as <- <-. unfold request_sth in E. injection E as <- _. done.
  - destruct (publish c up s t t1 t2) as [[s3 ms] ok] eqn:E. injection Hs as <- <- ->. apply publish_fields in E as (-> & _). done.
  - exfalso. apply Hn. by left.
Qed.

Lemma submitted_elem l x : Submit x ∈ l -> x ∈ submitted l.
Proof.
  unfold submitted. induction l as [|e l IH]; [by intros ?%elem_of_nil|]. cbn. intros [<-|Hx]%elem_of_cons.
  - by left.
  - apply elem_of_app. right. by apply IH.
Qed.

Lemma kept s l s' o t t1 t2 s'' ms : l_pool s = new_pool -> lives c up s l s' o -> EndPeriod ∉ l ->
  publish c up s' t t1 t2 = (s'', ms, true) ->
  exists g root, l_sth s'' !! pad2 (S (n_minute t)) = Some g /\ extract_root_hash g = Some root /\
    (forall x, Submit x ∈ l -> exists p, verify_proof (h_sha256 P) (c_subject x) (Some p) root = true) /\
    (NoDup (map c_subject (submitted l)) ->
     exists tr, new_tree (h_sha256 P) (map c_subject (submitted l)) = Some tr /\ mt_root tr = root).
Proof.
  intros E Hl Hn Hp. pose proof (lives_pool _ _ _ _ Hl Hn) as Hpool. rewrite E in Hpool.
  assert (get_certs (l_pool s') = first_copies (map tbs_certificate (submitted l))) as Hc
    by (rewrite Hpool; apply (add_all_spec (map tbs_certificate (submitted l)))).
  destruct (le_lt_dec 2 (length (get_certs (l_pool s')))) as [H2|H2]; [|rewrite publish_small in Hp by done; done].
  destruct (publish_spec c up s' t t1 t2 H2) as (s1 & ms' & ok & tr & Hp' & Ht & Hst & _). rewrite Hp in Hp'. injection Hp' as <- <- <-.
  cbn zeta in Hst. eexists _, (mt_root tr). split; [rewrite Hst; apply lookup_insert|]. split; [apply root_readable|]. split.
  - intros x Hx%submitted_elem. destruct (first_copies_facts (map tbs_certificate (submitted l))) as (_ & H & _).
    destruct (H (tbs_certificate x)) as (d & Hd & Hs & _); [by apply elem_of_list_fmap_1|].
    rewrite <- Hc in Hd. apply elem_of_list_lookup in Hd as [i Hi].
    destruct (proofs_verify (h_sha256 P) _ tr i (c_subject d) Ht) as (p & _ & Hv); [by rewrite list_lookup_fmap, Hi|].
    exists p. cbn in Hs. by rewrite <- Hs.
  - intros Hd. exists tr. split; [|done]. rewrite <- Ht, Hc. f_equal.
    assert (map c_subject (map tbs_certificate (submitted l)) = map c_subject (submitted l)) as Em by (rewrite map_map; done).
    rewrite first_copies_distinct by (by rewrite Em). done.
Qed.

Lemma lives_run s l s' o : lives c up s l s' o -> logger_run c up s l = (s', o).
Proof. induction 1 as [|s e s1 o1 l s2 o2 Hs Hl IH]; [done|]. cbn. by rewrite Hs, IH. Qed.

(** Decomposing a history. *)
Lemma lives_app s l1 l2 s' o : lives c up s (l1 ++ l2) s' o ->
  exists s1 o1 o2, lives c up s l1 s1 o1 /\ lives c up s1 l2 s' o2 /\ o = (o1 ++ o2)%list.
Proof.
  revert s o. induction l1 as [|e l1 IH]; intros s o H.
  - exists s, [], o. split; [constructor|done].
  - inversion H as [|? ? sa oa ? ? ob Hs Hl]; subst. destruct (IH _ _ Hl) as (s1 & o1 & o2 & H1 & H2 & ->).
    exists s1, (oa ++ o1)%list, o2. split; [by econstructor|]. split; [done|]. by rewrite app_assoc.
Qed.

Lemma available_next k l s o t t1 t2 s1 ms l' s' o' : n_minute t <> 59 -> lives c up (logger_init 0 k) l s o ->
  publish c up s t t1 t2 = (s1, ms, true) -> lives c up s1 l' s' o' -> no_publish_for (next_minute (n_minute t)) l' ->
  exists g root tr, snd (request_sth s' (next_minute (n_minute t))) = Answer g /\ g_type g = STH_INIT /\
    g_period g = unpadded (next_minute (n_minute t)) /\
    g_signer g = lc_signer c /\ extract_root_hash g = Some root /\
    new_tree (h_sha256 P) (map c_subject (get_certs (l_pool s))) = Some tr /\ mt_root tr = root.
Proof.
  intros Hm. assert (next_minute (n_minute t) = S (n_minute t)) as -> by (unfold next_minute; by apply Nat.eqb_neq in Hm as ->).
  intros H1 Hp H2 Hn. destruct (available c up k l s o t t1 t2 s1 ms l' s' o' H1 Hp H2 Hn) as (g & root & A & B & C & D & E & tr & F & G).
  eauto 12.
Qed.

(** The tree head inside the object. *)
Lemma inner_period t root size period : exists b h, hex_decode (g_p1 (sth_object c t root size period)) = Some b /\
  sth_unmarshal b = Some h /\ sth_period h = pad2 (n_minute t) /\ sth_size h = Z.of_nat size.
Proof. eexists _, _. unfold sth_object. cbn [g_p1]. rewrite hex_roundtrip. split; [done|]. rewrite sth_roundtrip. done. Qed.

(** The other tree. *)
Lemma fake_differs s t t1 t2 s' ms ok : publish c up s t t1 t2 = (s', ms, ok) -> 2 <= length (get_certs (l_pool s)) ->
  exists g f, l_sth s' !! pad2 (S (n_minute t)) = Some g /\ l_fake s' !! pad2 (S (n_minute t)) = Some f /\
    g_type f = g_type g /\ g_signer f = g_signer g /\ g_period f = g_period g /\ get_id f = get_id g /\ covered f <> covered g.
Proof.
  intros Hp Hl. destruct (build_tree_some c _ t1 (S (n_minute t)) Hl) as (tr & Ht & Hb). unfold publish in Hp. rewrite Hb in Hp.
  destruct (get_certs (l_pool s)) as [|x r] eqn:E; [cbn in Hl; lia|].
  destruct (build_tree_some c ((x :: r) ++ [x])%list t2 (S (n_minute t))) as (tr2 & Ht2 & Hb2); [rewrite app_length; lia|].
  rewrite Hb2 in Hp. destruct (send_pois _ _ _ _) as [ms' ok'] eqn:Es. injection Hp as <- <- <-. cbn [l_sth l_fake].
  eexists _, _. split; [apply lookup_insert|]. split; [apply lookup_insert|]. split_and!; try done.
  unfold covered. cbn [g_p0 g_p1 g_p2 sth_object]. intros H. apply app_inj_l in H.
  rewrite !app_nil_r_s in H. apply (f_equal hex_decode) in H. rewrite !hex_roundtrip in H. apply (inj Some) in H.
  apply (f_equal sth_unmarshal) in H. rewrite !sth_roundtrip in H. apply (inj Some) in H. apply (f_equal sth_size) in H. cbn [sth_size tree_head] in H. rewrite app_length in H. cbn in H. lia.
Qed.
Lemma built_proofs certs t period g root pois i x :
  build_tree c certs t period = Some (g, root, pois) -> certs !! i = Some x ->
  extract_root_hash g = Some root /\
  exists p, pois !! i = Some p /\ poi_ski p = c_ski x /\ poi_issuer p = c_issuer_cn x /\ poi_logger p = lc_signer c /\
    verify_proof (h_sha256 P) (c_subject x) (poi_proof p) root = true.
Proof.
  unfold build_tree. destruct (new_tree _ _) as [tr|] eqn:Et; [|done]. intros [= <- <- <-] Hx. split; [apply root_readable|].
  destruct (proofs_verify (h_sha256 P) _ tr i (c_subject x) Et) as (p & Hp & Hv); [by rewrite list_lookup_fmap, Hx|].
  eexists. rewrite list_lookup_fmap, (combine_nth _ _ _ _ _ Hp Hx). split; [reflexivity|]. done.
Qed.

Lemma lives_indexed s l s' o : lives c up s l s' o -> indexed (l_pool s) -> indexed (l_pool s').
Proof.
  induction 1 as [|s e s1 o1 l s2 o2 Hs Hl IH]; [done|]. intros HI. apply IH. clear IH.
  destruct e as [crt|m'|t t1 t2|]; cbn [logger_step] in Hs.
  - injection Hs as <- <-. by apply indexed_add.
  - destruct (request_sth s m') as [s3 r] eqn:E. injection Hs as <- <-. unfold request_sth in E. by injection E as <- _.
  - destruct (publish c up s t t1 t2) as [[s3 ms] ok] eqn:E. injection Hs as <- <- ->. by apply publish_fields in E as (-> & _).
  - injection Hs as <- <-. apply indexed_new.
Qed.

Lemma delivered ty k l s o t t1 t2 : lives c up (logger_init ty k) l s o -> 2 <= length (get_certs (l_pool s)) ->
  ski_unique (get_certs (l_pool s)) -> (forall x, x ∈ get_certs (l_pool s) -> c_ski x <> "" -> up (c_issuer_cn x) = true) ->
  exists s' ms g root, publish c up s t t1 t2 = (s', ms, true) /\
    l_sth s' !! pad2 (S (n_minute t)) = Some g /\ extract_root_hash g = Some root /\
    (forall ca, ca ∈ lc_cas c -> SthTo ca g ∈ ms) /\
    forall x, x ∈ get_certs (l_pool s) -> c_ski x <> "" -> exists p, PoiTo (c_issuer_cn x) (mkpoi (Some p) (c_ski x) (c_issuer_cn x) (lc_signer c)) ∈ ms /\
      verify_proof (h_sha256 P) (c_subject x) (Some p) root = true.
Proof. intros Hl. apply publish_proofs. eapply lives_indexed; [done|apply indexed_new]. Qed.
End histories.
