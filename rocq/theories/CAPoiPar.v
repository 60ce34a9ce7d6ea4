(** Handlers of proofs of inclusion that run at the same time, for different certificates. *)
From Verif Require Import Bytes Json Types Crypto Verify SpecCodec SpecVerify Merkle Cert CertPool CTngExt Clock SpecCert CertFacts ExtFacts.
From Verif Require Import Bitset Revocation SpecCA CA CAFacts CARidFacts CAPoiFacts.
Open Scope string_scope.

Lemma in_snoc {A} (a b : A) l : a ∈ (l ++ [b])%list <-> a ∈ l \/ a = b.
Proof. rewrite elem_of_app, elem_of_list_singleton. done. Qed.

Lemma handlers_prefix ps l e : handlers ps (l ++ [e]) -> handlers ps l.
Proof.
  intros (H1 & H2 & H3). split_and!.
  - intros k p H. apply H1, in_snoc. by left.
  - by apply NoDup_app in H2 as (H2 & _ & _).
  - intros l1 k l2 ->. eapply (H3 l1 k (l2 ++ [e])%list). by rewrite <- app_assoc.
Qed.

Section par.
Context (ps : gmap nat poi) (s : cast) (Hs : pool_ok s) (Hd : different ps).
Notation run l := (fold_left poi_step l (s, ∅ : poi_threads)).
Notation upd crt p := (update_ctng crt (info_of s p)).

Definition par_inv (l : list poi_event) : Prop :=
  indexed (a_pool (fst (run l))) /\ a_sths (fst (run l)) = a_sths s /\
  (forall k p crt, PoiWrite k ∈ l -> ps !! k = Some p -> get_by_ski (a_pool s) (poi_ski p) = Some crt ->
     get_by_ski (a_pool (fst (run l))) (poi_ski p) = Some (upd crt p)) /\
  (forall key, (forall k p, PoiWrite k ∈ l -> ps !! k = Some p -> poi_ski p <> key) ->
     get_by_ski (a_pool (fst (run l))) key = get_by_ski (a_pool s) key) /\
  (forall k p crt, ps !! k = Some p -> get_by_ski (a_pool s) (poi_ski p) = Some crt -> PoiRead k p ∈ l -> PoiWrite k ∉ l ->
     snd (run l) !! k = Some (p, upd crt p)) /\
  (forall k q u, snd (run l) !! k = Some (q, u) -> ps !! k = Some q /\ exists crt, get_by_ski (a_pool s) (poi_ski q) = Some crt /\ u = upd crt q).

Lemma par_hold l : handlers ps l -> par_inv l.
Proof.
  induction l as [|e l IH] using rev_ind; intros Hl.
  { destruct Hs as [HI _]. unfold par_inv. cbn [fold_left fst snd]. split_and!; try done.
    - intros k p crt H. by apply elem_of_nil in H.
    - intros k p crt _ _ H. by apply elem_of_nil in H. }
  specialize (IH (handlers_prefix _ _ _ Hl)). destruct IH as (I1 & I2 & I3 & I4 & I5 & I6).
  destruct Hl as (H1 & H2 & H3). apply NoDup_app in H2 as (N1 & N2 & _).
  unfold par_inv. rewrite fold_left_app. cbn [fold_left].
  destruct (run l) as [s1 ts] eqn:E. cbn [fst snd] in *.
  assert (e ∉ l) as He. { intros H. apply (N2 e H). by left. }
  destruct e as [k p|k].
  - assert (ps !! k = Some p) as Hk by (apply H1, in_snoc; by right).
    assert (PoiWrite k ∉ l) as Hw.
    { intros H. apply elem_of_list_split in H as (l1 & l2 & ->).
      destruct (H3 l1 k (l2 ++ [PoiRead k p])%list) as [q Hq]; [by rewrite <- app_assoc|].
      assert (ps !! k = Some q) as Hq' by (apply H1, in_snoc; left; apply elem_of_app; by left).
      assert (q = p) as -> by congruence. apply He, elem_of_app. by left. }
    assert (get_by_ski (a_pool s1) (poi_ski p) = get_by_ski (a_pool s) (poi_ski p)) as Eg.
    { apply I4. intros k' p' Hw' Hk' Es. apply (Hd k' k p' p); try done. intros ->. done. }
    cbn [poi_step]. rewrite Eg.
    assert (forall k', PoiWrite k' ∈ (l ++ [PoiRead k p])%list <-> PoiWrite k' ∈ l) as Ew.
    { intros k'. rewrite in_snoc. split; [by intros [?|?]|by left]. }
    destruct (get_by_ski (a_pool s) (poi_ski p)) as [crt|] eqn:Ec; cbn [fst snd].
    + assert (update_ctng crt (mkloginfo (obj_at (a_sths s1) (poi_logger p)) p) = upd crt p) as Eu by (unfold info_of; by rewrite I2).
      rewrite Eu. split_and!; try done.
      * intros k' p' c' Hw' Hk' Hc'. apply Ew in Hw'. by eapply I3.
      * intros key Hn. apply I4. intros k' p' Hw'. apply Hn. by apply Ew.
      * intros k' p' c' Hk' Hc' Hr Hw'. rewrite Ew in Hw'. destruct (decide (k' = k)) as [->|Hne].
        -- unfold poi_threads; rewrite lookup_insert. assert (p' = p) as -> by congruence. by assert (c' = crt) as -> by congruence.
        -- unfold poi_threads; rewrite lookup_insert_ne by done. apply in_snoc in Hr as [Hr|Hr]; [by eapply I5|congruence].
      * intros k' q u. destruct (decide (k' = k)) as [->|Hne].
        -- unfold poi_threads; rewrite lookup_insert. intros Hx. injection Hx as <- <-. split; [done|]. by exists crt.
        -- unfold poi_threads; rewrite lookup_insert_ne by done. apply I6.
    + split_and!; try done.
      * intros k' p' c' Hw' Hk' Hc'. apply Ew in Hw'. by eapply I3.
      * intros key Hn. apply I4. intros k' p' Hw'. apply Hn. by apply Ew.
      * intros k' p' c' Hk' Hc' Hr Hw'. rewrite Ew in Hw'. apply in_snoc in Hr as [Hr|Hr]; [by eapply I5|]. congruence.
  - destruct (H3 l k []) as [p Hr]; [done|].
    assert (ps !! k = Some p) as Hk by (apply H1, in_snoc; by left).
    cbn [poi_step]. destruct (get_by_ski (a_pool s) (poi_ski p)) as [crt|] eqn:Ec.
    + rewrite (I5 k p crt Hk Ec Hr He). cbn [fst snd].
      assert (get_by_ski (a_pool s1) (poi_ski p) = Some crt) as Eg.
      { rewrite <- Ec. apply I4. intros k' p' Hw' Hk' Es. apply (Hd k' k p' p); try done. intros ->. done. }
      destruct (update_names crt (info_of s p)) as [M1 M2].
      cbn [a_pool a_sths set_a_pool].
      split_and!; [apply indexed_update; [done|]; intros d Hx; assert (d = crt) as -> by congruence; done|done|..].
      * intros k' p' c' Hw' Hk' Hc'. erewrite get_update; [|done|exact Eg|exact M2|exact M1].
        destruct (decide (poi_ski p' = poi_ski p)) as [Es|Hn].
        -- destruct (decide (k' = k)) as [->|Hne]; [|destruct (Hd k' k p' p Hk' Hk Hne Es)].
           assert (p' = p) as -> by congruence. by assert (c' = crt) as -> by congruence.
        -- apply in_snoc in Hw' as [Hw'|Hw']; [by eapply I3|]. assert (k' = k) as -> by congruence. by assert (p' = p) as -> by congruence.
      * intros key Hn. erewrite get_update; [|done|exact Eg|exact M2|exact M1].
        rewrite decide_False. { apply I4. intros k' p' Hw'. apply Hn. apply in_snoc. by left. }
        intros ->. apply (Hn k p); [apply in_snoc; by right|done|done].
      * intros k' p' c' Hk' Hc' Hr' Hw'. apply in_snoc in Hr' as [Hr'|Hr']; [|done].
        unfold poi_threads; rewrite lookup_delete_ne by (intros ->; apply Hw', in_snoc; by right).
        eapply I5; try done. intros Hx. apply Hw', in_snoc. by left.
      * intros k' q u Hx. unfold poi_threads in Hx. apply lookup_delete_Some in Hx as [_ Hx]. by apply I6.
    + assert (ts !! k = None) as ->.
      { destruct (ts !! k) as [[q u]|] eqn:Et; [|done]. destruct (I6 _ _ _ Et) as (Hq & c' & Hc' & _). congruence. }
      cbn [fst snd]. split_and!; try done.
      * intros k' p' c' Hw' Hk' Hc'. apply in_snoc in Hw' as [Hw'|Hw']; [by eapply I3|]. assert (k' = k) as -> by congruence. congruence.
      * intros key Hn. apply I4. intros k' p' Hw'. apply Hn. apply in_snoc. by left.
      * intros k' p' c' Hk' Hc' Hr' Hw'. apply in_snoc in Hr' as [Hr'|Hr']; [|done].
        eapply I5; try done. intros Hx. apply Hw', in_snoc. by left.
Qed.

Lemma par_listed l k p crt : handlers ps l -> PoiWrite k ∈ l -> ps !! k = Some p -> get_by_ski (a_pool s) (poi_ski p) = Some crt ->
  ext_ok (mkctng (x_rid (parse_ctng crt)) (x_infos (parse_ctng crt) ++ [info_of s p])) ->
  exists crt', get_by_ski (a_pool (fst (run l))) (poi_ski p) = Some crt' /\ same_subject crt' crt /\
    listed (info_of s p) (x_infos (parse_ctng crt')) /\
    (~ listed (info_of s p) (x_infos (parse_ctng crt)) ->
     parse_ctng crt' = mkctng (x_rid (parse_ctng crt)) (x_infos (parse_ctng crt) ++ [info_of s p])).
Proof.
  intros Hl Hw Hk Hc Hx. destruct (par_hold l Hl) as (_ & _ & H & _). eexists. split; [by eapply H|].
  assert (carries crt) as Hcar. { destruct Hs as [_ HC]. rewrite Forall_forall in HC. apply HC. by eapply get_in. }
  destruct (update_all [info_of s p] crt Hcar Hx) as (added & E & _ & Hall & _). cbn [fold_left] in E. split_and!.
  - destruct (update_frame crt (info_of s p)) as [l' ->]. done.
  - rewrite E. cbn [x_infos]. apply Hall. by left.
  - intros Hn. by apply update_new.
Qed.

Lemma par_others l key : handlers ps l -> (forall k p, PoiWrite k ∈ l -> ps !! k = Some p -> poi_ski p <> key) ->
  get_by_ski (a_pool (fst (run l))) key = get_by_ski (a_pool s) key.
Proof. intros Hl. destruct (par_hold l Hl) as (_ & _ & _ & H & _). apply H. Qed.
End par.

Lemma par_reachable {P : prims} x z (c : caconf P) cc ty n d1 d2 h (ps : gmap nat poi) l :
  let s := ca_run x z c cc (ca_init x c ty n d1 d2) h in
  let s' := fst (fold_left poi_step l (s, ∅)) in
  handlers ps l -> different ps ->
  (forall k p crt, PoiWrite k ∈ l -> ps !! k = Some p -> get_by_ski (a_pool s) (poi_ski p) = Some crt ->
    ext_ok (mkctng (x_rid (parse_ctng crt)) (x_infos (parse_ctng crt) ++ [info_of s p])) ->
    exists crt', get_by_ski (a_pool s') (poi_ski p) = Some crt' /\ same_subject crt' crt /\
      listed (info_of s p) (x_infos (parse_ctng crt')) /\
      (~ listed (info_of s p) (x_infos (parse_ctng crt)) ->
       parse_ctng crt' = mkctng (x_rid (parse_ctng crt)) (x_infos (parse_ctng crt) ++ [info_of s p]))) /\
  (forall key, (forall k p, PoiWrite k ∈ l -> ps !! k = Some p -> poi_ski p <> key) ->
    get_by_ski (a_pool s') key = get_by_ski (a_pool s) key).
Proof.
  intros s s' Hl Hd. assert (pool_ok s) as Hs by apply run_pool, init_pool. split.
  - intros k p crt. by apply (par_listed ps s Hs Hd).
  - intros key. by apply (par_others ps s Hs Hd).
Qed.
