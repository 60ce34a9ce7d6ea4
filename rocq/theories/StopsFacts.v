(** When loggers stop. *)
From Verif Require Import Bytes Hex Json Types Crypto Verify Merkle Cert CertPool CTngExt Clock Logger SpecCert SpecLogger MerkleFacts CertFacts LoggerFacts SpecStops.
From Coq Require Import Lia.
Open Scope string_scope.

Section stops.
Context {P : prims} (c : lconf P) (up : string -> bool).

Lemma this_period_snoc l e : this_period (l ++ [e])%list =
  match e with Submit x => (this_period l ++ [x])%list | EndPeriod => [] | _ => this_period l end.
Proof. unfold this_period. rewrite fold_left_app. done. Qed.

Lemma lives_snoc s l e s' o : lives c up s (l ++ [e])%list s' o ->
  exists s1 o1 o2, lives c up s l s1 o1 /\ logger_step c up s1 e = (s', o2, true).
Proof.
  revert s o. induction l as [|x l IH]; intros s o H.
  - cbn in H. inversion H as [|? ? s1 o1 ? ? o2 Hs Hl]; subst. inversion Hl; subst. exists s, [], o1. split; [constructor|done].
  - cbn in H. inversion H as [|? ? s1 o1 ? ? o2 Hs Hl]; subst. apply IH in Hl as (s2 & o3 & o4 & H1 & H2).
    eexists s2, _, o4. split; [econstructor; eauto|done].
Qed.

Lemma pool_of_history ty k l s o : lives c up (logger_init ty k) l s o ->
  l_pool s = add_all (map tbs_certificate (this_period l)).
Proof.
  revert s o. induction l as [|e l IH] using rev_ind; intros s o Hl.
  { inversion Hl; subst. done. }
  apply lives_snoc in Hl as (s1 & o1 & o2 & H1 & H2). apply IH in H1. rewrite this_period_snoc.
  destruct e as [crt|m|t t1 t2|]; cbn [logger_step] in H2.
  - injection H2 as <- <-. unfold receive_precert. cbn. rewrite H1, map_app. unfold add_all. by rewrite fold_left_app.
  - destruct (request_sth s1 m) as [s3 r] eqn:E. injection H2 as <- <-. unfold request_sth in E. by injection E as <- _.
  - destruct (publish c up s1 t t1 t2) as [[s3 ms] ok] eqn:E. injection H2 as <- <- ->. by apply publish_fields in E as (-> & _).
  - injection H2 as <- <-. done.
Qed.

Lemma certs_of_history ty k l s o : lives c up (logger_init ty k) l s o ->
  get_certs (l_pool s) = first_copies (map tbs_certificate (this_period l)) /\ indexed (l_pool s).
Proof. intros H. rewrite (pool_of_history _ _ _ _ _ H). destruct (add_all_spec (map tbs_certificate (this_period l))). by split. Qed.

Lemma first_copies_in l x : x ∈ first_copies l -> x ∈ l.
Proof.
  unfold first_copies. enough (forall acc, (forall y, y ∈ acc -> y ∈ l) -> forall r, (forall y, y ∈ r -> y ∈ l) ->
    x ∈ fold_left (λ acc c, if existsb (same_cert c) acc then acc else (acc ++ [c])%list) r acc -> x ∈ l) as H.
  { apply (H []); [by intros y Hy%elem_of_nil|done]. }
  intros acc Ha r. revert acc Ha. induction r as [|d r IH]; intros acc Ha Hr; cbn [fold_left]; [apply Ha|]. apply IH; [|intros y Hy; apply Hr; by right].
  destruct (existsb _ _); [done|]. intros y [Hy|Hy]%elem_of_app; [by apply Ha|]. apply elem_of_list_singleton in Hy as ->. apply Hr. by left.
Qed.

Lemma send_fails s root l ms : indexed (l_pool s) -> (forall p, p ∈ l -> poi_ski p <> "" -> exists x, x ∈ p_certs (l_pool s) /\ c_ski x = poi_ski p) ->
  send_pois (P:=P) up s root l = (ms, false) -> exists p, p ∈ l /\ poi_ski p <> "" /\ up (poi_issuer p) = false.
Proof.
  intros HI. revert ms. induction l as [|p l IH]; intros ms Hin; cbn [send_pois]; [done|].
  assert (forall p, p ∈ l -> poi_ski p <> "" -> exists x, x ∈ p_certs (l_pool s) /\ c_ski x = poi_ski p) as Hin' by (intros q Hq; apply Hin; by right).
  assert (forall ms, send_pois (P:=P) up s root l = (ms, false) -> exists q, q ∈ p :: l /\ poi_ski q <> "" /\ up (poi_issuer q) = false) as IH'.
  { intros ms' H. destruct (IH ms' Hin' H) as (q & Hq & ? & ?). exists q. split; [by right|done]. }
  destruct (is_empty (poi_ski p)) eqn:Ee; [apply IH'|].
  assert (poi_ski p <> "") as Hk by (intros Q; rewrite Q in Ee; done).
  rewrite get_by_ski_spec by done. rewrite Ee. destruct (find _ _) as [crt|] eqn:Ef.
  - destruct (verify_proof _ _ _ _); [|done]. destruct (up (poi_issuer p)) eqn:Eu.
    + destruct (send_pois _ _ _ _) as [ms' ok] eqn:Es. intros [= _ ->]. by eapply IH'.
    + intros _. exists p. split; [by left|done].
  - exfalso. destruct (Hin p) as (x & Hx & Ex); [by left|done|]. apply elem_of_list_In in Hx.
    pose proof (find_none _ _ Ef x Hx) as Hn. cbn in Hn. rewrite Ex, String.eqb_refl in Hn. done.
Qed.

Lemma send_stops s root certs proofs : indexed (l_pool s) -> ski_unique (p_certs (l_pool s)) ->
  (forall x, x ∈ certs -> x ∈ p_certs (l_pool s)) ->
  Forall2 (λ p x, verify_proof (h_sha256 P) (c_subject x) (Some p) root = true) proofs certs ->
  (exists x, x ∈ certs /\ c_ski x <> "" /\ up (c_issuer_cn x) = false) ->
  (send_pois (P:=P) up s root (map (λ '(p, crt), mkpoi (Some p) (c_ski crt) (c_issuer_cn crt) (lc_signer c)) (combine proofs certs))).2 = false.
Proof.
  intros HI Hd Hs Hv. induction Hv as [|p x proofs certs Hpx Hv IH]; [intros (x & Hx & _); by apply elem_of_nil in Hx|].
  intros (y & Hy & Hk & Hu). cbn [combine map send_pois]. cbn [poi_ski poi_issuer poi_proof].
  assert (x ∈ p_certs (l_pool s)) as Hx by (apply Hs; by left).
  assert (forall x, x ∈ certs -> x ∈ p_certs (l_pool s)) as Hs' by (intros z Hz; apply Hs; by right).
  destruct (is_empty (c_ski x)) eqn:Ee.
  - apply IH; [done|]. exists y. split; [|done]. apply elem_of_cons in Hy as [->|Hy]; [|done]. by apply is_empty_eq in Ee.
  - assert (c_ski x <> "") as Hkx by (intros Q; rewrite Q in Ee; done).
    rewrite get_by_ski_spec by done. rewrite Ee. apply elem_of_list_lookup in Hx as [i Hi].
    rewrite (find_unique _ i x _ Hd Hi) by done. rewrite Hpx. destruct (up (c_issuer_cn x)) eqn:Eu; [|done].
    assert (y ∈ certs) as Hyc. { apply elem_of_cons in Hy as [->|Hy]; [congruence|done]. }
    specialize (IH Hs' (ex_intro _ y (conj Hyc (conj Hk Hu)))). destruct (send_pois _ _ _ _) as [ms ok]. exact IH.
Qed.

Lemma tree_verifies certs tr : new_tree (h_sha256 P) (map c_subject certs) = Some tr ->
  Forall2 (λ p x, verify_proof (h_sha256 P) (c_subject x) (Some p) (mt_root tr) = true) (mt_proofs tr) certs.
Proof.
  intros Ht. apply Forall2_same_length_lookup. split.
  - rewrite (proofs_length _ _ _ Ht). apply map_length.
  - intros i p x Hpi Hxi. destruct (proofs_verify (h_sha256 P) (map c_subject certs) tr i (c_subject x) Ht) as (q & Hq & Hv).
    + by rewrite list_lookup_fmap, Hxi.
    + rewrite Hq in Hpi. injection Hpi as ->. done.
Qed.

(** Only publishing stops a logger, *)
Lemma stops_only ty k l s o e s' o' : lives c up (logger_init ty k) l s o -> logger_step c up s e = (s', o', false) ->
  exists t t1 t2, e = Publish t t1 t2 /\
    (length (first_copies (map tbs_certificate (this_period l))) < 2 \/ out_of_reach up (this_period l)).
Proof.
  intros Hl He. destruct (certs_of_history _ _ _ _ _ Hl) as [Hc HI]. destruct e as [crt|m|t t1 t2|]; cbn [logger_step] in He; try done.
  exists t, t1, t2. split; [done|]. rewrite <- Hc.
  destruct (decide (length (get_certs (l_pool s)) < 2)) as [|Hn]; [by left|]. right.
  destruct (publish_spec c up s t t1 t2) as (s1 & ms & ok & tr & Hp & Ht & _ & _ & Hpl & _ & Hok); [lia|]. cbn zeta in Hok.
  rewrite Hp in He. injection He as _ _ ->.
  destruct (send_pois _ _ _ _) as [ms' ok'] eqn:Es. cbn in Hok. subst ok'. apply send_fails in Es as (p & Hp1 & Hp2 & Hp3).
  - apply elem_of_list_fmap in Hp1 as ([q x] & -> & Hx). cbn [poi_ski poi_issuer] in *.
    apply elem_of_list_In, in_combine_r, elem_of_list_In in Hx. rewrite Hc in Hx. apply first_copies_in, elem_of_list_fmap in Hx as (y & -> & Hy).
    exists y. by split_and!.
  - by rewrite Hpl.
  - intros p Hp1 _. apply elem_of_list_fmap in Hp1 as ([q x] & -> & Hx). exists x. split; [|done].
    apply elem_of_list_In, in_combine_r, elem_of_list_In in Hx. by rewrite Hpl.
Qed.

(** and it does so exactly if there are fewer than two certificates or a CA cannot be reached, provided that key identifiers are not used twice. *)
Lemma stops_exactly ty k l s o t t1 t2 : lives c up (logger_init ty k) l s o -> ski_unique (first_copies (map tbs_certificate (this_period l))) ->
  (logger_step c up s (Publish t t1 t2)).2 = false <->
  length (first_copies (map tbs_certificate (this_period l))) < 2 \/ out_of_reach up (first_copies (map tbs_certificate (this_period l))).
Proof.
  intros Hl Hd. destruct (certs_of_history _ _ _ _ _ Hl) as [Hc HI]. rewrite <- Hc in *. cbn [logger_step].
  destruct (decide (length (get_certs (l_pool s)) < 2)) as [Hn|Hn].
  { rewrite publish_small by done. cbn. split; [by left|done]. }
  destruct (publish_spec c up s t t1 t2) as (s1 & ms & ok & tr & Hp & Ht & _ & _ & Hpl & _ & Hok); [lia|]. cbn zeta in Hok.
  rewrite Hp. cbn [snd]. rewrite Hok. unfold get_certs in *. split.
  - intros E. right. destruct (send_pois _ _ _ _) as [ms' ok'] eqn:Es. cbn in E. subst ok'. apply send_fails in Es as (p & Hp1 & Hp2 & Hp3).
    + apply elem_of_list_fmap in Hp1 as ([q x] & -> & Hx). cbn [poi_ski poi_issuer] in *.
      apply elem_of_list_In, in_combine_r, elem_of_list_In in Hx. exists x. by split_and!.
    + by rewrite Hpl.
    + intros p Hp1 _. apply elem_of_list_fmap in Hp1 as ([q x] & -> & Hx). exists x. split; [|done].
      apply elem_of_list_In, in_combine_r, elem_of_list_In in Hx. by rewrite Hpl.
  - intros [?|Hr]; [lia|]. apply send_stops; rewrite ?Hpl; auto. by apply tree_verifies.
Qed.

(** A history is lived through, or ends when a tree head is published. *)
Lemma run_ends l : forall ty k l0 s o0, lives c up (logger_init ty k) l0 s o0 ->
  (exists s' o, lives c up s l s' o /\ logger_run c up s l = (s', o)) \/
  (exists l1 t t1 t2 l2 s1 o1 s' o2, l = (l1 ++ Publish t t1 t2 :: l2)%list /\ lives c up s l1 s1 o1 /\
     logger_step c up s1 (Publish t t1 t2) = (s', o2, false) /\ logger_run c up s l = (s', (o1 ++ o2 ++ [LDead])%list)).
Proof.
  induction l as [|e l IH]; intros ty k l0 s o0 Hl.
  { left. exists s, []. split; [constructor|done]. }
  cbn [logger_run]. destruct (logger_step c up s e) as [[s1 o1] ok] eqn:E. destruct ok.
  - assert (lives c up (logger_init ty k) (l0 ++ [e])%list s1 (o0 ++ o1 ++ [])%list) as Hl1.
    { clear IH. induction Hl as [|s0 e' s2 o2 l' s3 o3 Hs Hl IHl]; cbn [app].
      - econstructor; [exact E|constructor].
      - rewrite <- app_assoc. econstructor; [exact Hs|]. by apply IHl. }
    destruct (IH _ _ _ _ _ Hl1) as [(s' & o & H1 & H2)|(l1 & t & t1 & t2 & l2 & s2 & o2 & s' & o3 & -> & H1 & H2 & H3)].
    + left. exists s', (o1 ++ o)%list. split; [by econstructor|]. by rewrite H2.
    + right. exists (e :: l1), t, t1, t2, l2, s2, (o1 ++ o2)%list, s', o3. split; [done|]. split; [by econstructor|]. split; [done|].
      rewrite H3. by rewrite <- app_assoc.
  - right. destruct (stops_only _ _ _ _ _ _ _ _ Hl E) as (t & t1 & t2 & -> & _).
    exists [], t, t1, t2, l, s, [], s1, o1. split; [done|]. split; [constructor|]. by split.
Qed.
End stops.
