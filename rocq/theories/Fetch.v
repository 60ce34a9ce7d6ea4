(** Large revocation objects are announced by their hash and fetched. *)
From Verif Require Import Bytes Hex Json Types Crypto Verify Prog Gossiper SpecCodec SpecVerify SpecGossiper ProgFacts GstFacts CodecFacts CryptoFacts VerifyFacts GWalk GossiperInv GossiperSeq GossiperEvidence GossiperStep GossiperFrag GossiperMore.
From Coq Require Import Lia.
Open Scope string_scope.

Section fetch.
Context {P : prims}.
Implicit Types (cA cB : gconf P).

Lemma rev_id g : g_type g = REV_INIT -> mkgid (g_period g) REV_INIT (g_p0 g) = get_id g.
Proof. intros Ht. unfold get_id. rewrite Ht. reflexivity. Qed.

Lemma asked cB sB sender g : g_type g = REV_INIT -> (forall o, t_payload sB !! get_id g = Some o -> obj_hash (P:=P) o <> obj_hash (P:=P) g) ->
  run (notification_handler cB (mknote sender (g_period g) REV_INIT (g_p0 g) (obj_hash (P:=P) g))) sB =
  (add_trace sB [ToGossiper sender "/gossip/new_payload_request" (MNote (mknote (cc_self (gc_crypto cB)) (g_period g) REV_INIT (g_p0 g) (obj_hash (P:=P) g)))], [], Done tt).
Proof.
  intros Ht Hno. unfold notification_handler. cbn [pbind pread run n_period n_entity n_hash n_type n_sender]. rewrite (rev_id g Ht).
  destruct (t_payload sB !! get_id g) as [o|] eqn:E; [|reflexivity]. rewrite bool_decide_eq_false_2 by (by apply Hno). reflexivity.
Qed.
Lemma not_asked cB sB sender g o : g_type g = REV_INIT -> t_payload sB !! get_id g = Some o -> obj_hash (P:=P) o = obj_hash (P:=P) g ->
  run (notification_handler cB (mknote sender (g_period g) REV_INIT (g_p0 g) (obj_hash (P:=P) g))) sB = (sB, [], Done tt).
Proof.
  intros Ht Ho E. unfold notification_handler. cbn [pbind pread run n_period n_entity n_hash n_type n_sender]. rewrite (rev_id g Ht), Ho.
  rewrite bool_decide_eq_true_2 by done. reflexivity.
Qed.
Lemma answered s sender h g : g_type g = REV_INIT -> g_p0 g <> "" -> t_payload s !! get_id g = Some g ->
  run (request_handler (mknote sender (g_period g) REV_INIT (g_p0 g) h)) s = (add_trace s [ToGossiper sender "/gossip/rev_init" (MObj g)], [], Done tt).
Proof.
  intros Ht H0 Hp. unfold request_handler. cbn [pbind pread run n_period n_entity n_sender]. rewrite (rev_id g Ht). unfold obj_at. rewrite Hp.
  cbn. destruct (g_p0 g) as [|a r] eqn:E; [done|]. reflexivity.
Qed.
Lemma not_answered s sender h g : g_type g = REV_INIT -> t_payload s !! get_id g = None ->
  run (request_handler (mknote sender (g_period g) REV_INIT (g_p0 g) h)) s = (s, [], Done tt).
Proof.
  intros Ht Hp. unfold request_handler. cbn [pbind pread run n_period n_entity n_sender]. rewrite (rev_id g Ht). unfold obj_at. rewrite Hp. reflexivity.
Qed.

Lemma payload_kept cA s g : GI cA s -> 0 < cc_threshold (gc_crypto cA) -> g_type g = REV_INIT -> verify (gc_crypto cA) g = Accept ->
  t_rev_init s !! get_id g = None -> g_signer g <> "" -> g_p0 g ∉ t_black s ->
  exists s', run (handle cA g) s = (s', [SignLater g], Done tt) /\ t_payload s' = t_payload s /\ t_trace s' = (t_trace s ++ EvStored g :: publication cA g)%list.
Proof.
  intros HI HT Ht Hv Hno Hsg Hb. assert (statement g) as Hs by (by right). assert (obj_kind g = KObj (OInit Rev)) as Hk by (unfold obj_kind; by rewrite Ht).
  unfold handle. rewrite (handle_stmt cA 2 Rev) by auto. change (t_rev_init s) with (get_tbl s (OInit Rev)) in Hno.
  assert (is_duplicate s g = false) as -> by (unfold is_duplicate; by rewrite Hk, Hno).
  unfold in_blacklist. rewrite bool_decide_eq_false_2 by done.
  assert (is_malicious s g = false) as ->.
  { unfold is_malicious, get_object, obj_at. rewrite Hk, Hno. rewrite bool_decide_eq_false_2 by done; done. }
  rewrite Hv. eexists. split; [reflexivity|]. unfold published. autorewrite with gst.
  destruct (conv_i_fields cA (inserted s (OInit Rev) g)) as (_ & _ & _ & -> & ->). unfold inserted. autorewrite with gst.
  split; [done|]. unfold publication, sends. rewrite sends_announcement by (destruct Hs; auto). rewrite <- !app_assoc. done.
Qed.

Theorem fetched cA s g n : reachable cA s -> 0 < cc_threshold (gc_crypto cA) -> g_type g = REV_INIT -> verify (gc_crypto cA) g = Accept ->
  t_rev_init s !! get_id g = None -> g_signer g <> "" -> g_p0 g <> "" -> g_p0 g ∉ t_black s ->
  (gc_opt_threshold cA < Z.of_nat (String.length (gobj_marshal g)))%Z -> (gc_opt_threshold cA < n)%Z ->
  let note u := mknote u (g_period g) REV_INIT (g_p0 g) (obj_hash (P:=P) g) in
  let self c := cc_self (gc_crypto c) in
  exists s', run (object_handler cA n g) s = (s', [SignLater g], Done tt) /\
    t_trace s' = (t_trace s ++ EvStored g :: map (λ u, ToGossiper u "/gossip/new_payload_notification" (MNote (note (self cA)))) (gc_neighbours cA) ++ [ToMonitor (gc_owner cA) g])%list /\
    t_payload s' !! get_id g = Some g /\
    (forall cB sB, (forall o, t_payload sB !! get_id g = Some o -> obj_hash (P:=P) o <> obj_hash (P:=P) g) ->
      run (notification_handler cB (note (self cA))) sB = (add_trace sB [ToGossiper (self cA) "/gossip/new_payload_request" (MNote (note (self cB)))], [], Done tt)) /\
    (forall cB s2, t_payload s2 !! get_id g = Some g ->
      run (request_handler (note (self cB))) s2 = (add_trace s2 [ToGossiper (self cB) "/gossip/rev_init" (MObj g)], [], Done tt)).
Proof.
  intros Hr HT Ht Hv Hno Hsg H0 Hb Hlen Hn note self.
  assert (obj_kind g = KObj (OInit Rev)) as Hk by (unfold obj_kind; by rewrite Ht).
  pose proof (reachable_inv cA s Hr) as HI.
  set (s1 := set_payload s (<[get_id g := g]> (t_payload s))).
  assert (GI cA s1) as HI1.
  { destruct HI as (H1 & H2 & H3 & H4 & H5). unfold s1. split_and!.
    - intros k i o. rewrite get_tbl_set_payload. apply H1.
    - intros i o. rewrite t_payload_set_payload. intros [[<- <-]|[_ ?]]%lookup_insert_Some; [|by apply H2]. split_and!; done.
    - intros f i l. rewrite get_frags_set_payload. apply H3.
    - unfold trace_ok. rewrite t_trace_set_payload. apply H4.
    - intros f i Hi. unfold get_object_list. rewrite t_trace_set_payload, get_frags_set_payload. by apply H5. }
  destruct (payload_kept cA s1 g HI1 HT Ht Hv) as (s' & Hrun & Hp & Htr); [|done| |].
  { change (t_rev_init s1) with (get_tbl s1 (OInit Rev)). unfold s1. by rewrite get_tbl_set_payload. }
  { unfold s1. by rewrite t_black_set_payload. }
  exists s'. split; [|split; [|split; [|split]]].
  - unfold object_handler. rewrite (proj2 (Z.ltb_lt _ _) Hn), bool_decide_eq_true_2 by done. cbn [andb pwhen]. unfold save_payload. rewrite Hv.
    rewrite (bool_decide_eq_false_2 (obj_kind g = KFrag Rev)) by (by rewrite Hk). rewrite andb_false_r. exact Hrun.
  - rewrite Htr. unfold s1. rewrite t_trace_set_payload. unfold publication. unfold announcement. rewrite !(decide_False (P := g_type g = _)) by (by rewrite Ht).
    rewrite decide_True by done. cbn [fst snd]. by rewrite Ht.
  - rewrite Hp. unfold s1. rewrite t_payload_set_payload. apply lookup_insert.
  - intros cB sB. by apply asked.
  - intros cB s2. by apply answered.
Qed.

(** Nothing is cached if the request that brought the object did not announce its size. *)
Theorem announced_uncached cA s g n : reachable cA s -> 0 < cc_threshold (gc_crypto cA) -> g_type g = REV_INIT -> verify (gc_crypto cA) g = Accept ->
  t_rev_init s !! get_id g = None -> t_payload s !! get_id g = None -> g_signer g <> "" -> g_p0 g <> "" -> g_p0 g ∉ t_black s ->
  (gc_opt_threshold cA < Z.of_nat (String.length (gobj_marshal g)))%Z -> (n <= gc_opt_threshold cA)%Z ->
  exists s', run (object_handler cA n g) s = (s', [SignLater g], Done tt) /\
    (forall u, u ∈ gc_neighbours cA -> ToGossiper u "/gossip/new_payload_notification" (MNote (mknote (cc_self (gc_crypto cA)) (g_period g) REV_INIT (g_p0 g) (obj_hash (P:=P) g))) ∈ t_trace s') /\
    (forall sender h, run (request_handler (mknote sender (g_period g) REV_INIT (g_p0 g) h)) s' = (s', [], Done tt)).
Proof.
  intros Hr HT Ht Hv Hno Hpn Hsg H0 Hb Hlen Hn.
  assert (obj_kind g = KObj (OInit Rev)) as Hk by (unfold obj_kind; by rewrite Ht).
  destruct (payload_kept cA s g (reachable_inv cA s Hr) HT Ht Hv Hno Hsg Hb) as (s' & Hrun & Hp & Htr).
  exists s'. split; [|split].
  - unfold object_handler. rewrite (proj2 (Z.ltb_ge _ _) Hn). cbn [andb pwhen].
    rewrite (bool_decide_eq_false_2 (obj_kind g = KFrag Rev)) by (by rewrite Hk). rewrite andb_false_r. exact Hrun.
  - intros u Hu. rewrite Htr. apply elem_of_app. right. right. unfold publication, announcement. rewrite !(decide_False (P := g_type g = _)) by (by rewrite Ht).
    rewrite decide_True by done. cbn [fst snd]. rewrite Ht. apply elem_of_app. left. apply elem_of_list_fmap. by exists u.
  - intros sender h. apply not_answered; [done|]. by rewrite Hp.
Qed.
End fetch.
