(** Invariants of one gossiper under every interleaving. *)
From Verif Require Import Bytes Hex Json Types Crypto Verify Prog Gossiper SpecVerify SpecGossiper ProgFacts GstFacts CodecFacts CryptoFacts VerifyFacts GWalk.
From Coq Require Import Lia.
Open Scope string_scope.

Lemma since_wipe_snoc tr e : since_wipe (tr ++ [e]) = match e with EvWiped => [] | _ => (since_wipe tr ++ [e])%list end.
Proof. unfold since_wipe. rewrite fold_left_app. done. Qed.

Lemma since_wipe_app tr l : Forall (λ e, e <> EvWiped) l -> since_wipe (tr ++ l) = (since_wipe tr ++ l)%list.
Proof.
  intros H. revert tr. induction H as [|e l He _ IH]; intros tr; [by rewrite !app_nil_r|].
  rewrite cons_middle, app_assoc, IH, since_wipe_snoc. destruct e; try done; by rewrite <- app_assoc.
Qed.

Lemma befores_app i l1 l2 : befores i (l1 ++ l2) = (befores i l1 ++ befores i l2)%list.
Proof. unfold befores. apply omap_app. Qed.

Lemma befores_one i j n : befores i [EvBefore j n] = if decide (j = i) then [n] else [].
Proof. unfold befores. cbn. by destruct (decide (j = i)). Qed.

Section inv.
Context {P : prims} (cfg : gconf P).
Notation cc := (gc_crypto cfg).
Notation T := (cc_threshold cc).

(** Events recorded in the trace, each seen with the trace before it. *)
Definition evt_ok (before : list gevt) (e : gevt) : Prop :=
  match e with
  | EvStored g => verify cc g = Accept /\ exists k, g_type g = okind_type k
  | EvSigned g fr => EvStored g ∈ before /\ is_init g /\
      exists sf, cc_thr_sign cc (signed_msg g) = Some sf /\ fr = frag_of cfg g (sigfrag_string sf)
  | EvFull g => is_full g /\ length (g_signers g) = T
  | ToMonitor _ g => is_full g \/ (EvStored g ∈ before /\ verify cc g = Accept /\ relayed g)
  | ToGossiper _ _ (MObj g) => is_frag g \/ (verify cc g = Accept /\ relayed g)
  | _ => True
  end.

Definition trace_ok (s : gst) : Prop := forall a e b, t_trace s = (a ++ e :: b)%list -> evt_ok a e.

Definition count_ok (s : gst) : Prop := forall f i, i_type i = frag_type f ->
  let l := befores i (since_wipe (t_trace s)) in
  l = map (λ n, min n T) (seq 0 (length l)) /\
  length (get_object_list s i f) = min (length l) T.

Lemma trace_split (ok : list gevt -> gevt -> Prop) (t l : list gevt) :
  (forall a e b, t = (a ++ e :: b)%list -> ok a e) ->
  (forall a e b, l = (a ++ e :: b)%list -> ok (t ++ a)%list e) ->
  forall a e b, (t ++ l)%list = (a ++ e :: b)%list -> ok a e.
Proof.
  intros H1 H2 a e b E. apply app_eq_inv in E as [(k & E1 & E2)|(k & E1 & E2)].
  - destruct k as [|x k].
    + rewrite app_nil_r in E1. subst a. rewrite <- (app_nil_r t). eapply H2. by rewrite app_nil_l in *; symmetry.
    + injection E2 as -> ->. by eapply H1.
  - subst a. by eapply H2.
Qed.

Definition GI (s : gst) : Prop :=
  tables_ok cfg s /\ payload_ok cfg s /\ buckets_ok cfg s /\ trace_ok s /\ count_ok s.
Definition GR (s s' : gst) : Prop := t_trace s `prefix_of` t_trace s'.
Definition GD (g : gobj) (s : gst) : Prop := EvStored g ∈ t_trace s.
Definition Gtok (t : gtask) (s : gst) : Prop := match t with SignLater g => GD g s /\ is_init g end.

Definition quiet (e : gevt) : Prop := match e with EvWiped | EvBefore _ _ => False | _ => True end.

Lemma befores_quiet i l : Forall quiet l -> befores i l = [].
Proof. induction 1 as [|e l He _ IH]; [done|]. destruct e; done. Qed.

Lemma GI_frame s s' :
  (forall k, get_tbl s' k = get_tbl s k) -> (forall f, get_frags s' f = get_frags s f) ->
  t_payload s' = t_payload s -> t_trace s' = t_trace s -> GI s -> GI s' /\ GR s s'.
Proof.
  intros E1 E2 E3 E4 (H1 & H2 & H3 & H4 & H5). split; [|unfold GR; by rewrite E4].
  split_and!.
  - intros k i o. rewrite E1. apply H1.
  - intros i o. rewrite E3. apply H2.
  - intros f i l. rewrite E2. apply H3.
  - unfold trace_ok. rewrite E4. apply H4.
  - intros f i Hi. unfold get_object_list. rewrite E4, E2. apply H5. done.
Qed.

Lemma GI_trace s l : Forall quiet l ->
  (forall a e b, l = (a ++ e :: b)%list -> evt_ok (t_trace s ++ a)%list e) -> GI s ->
  GI (add_trace s l) /\ GR s (add_trace s l).
Proof.
  intros Hq Hl (H1 & H2 & H3 & H4 & H5).
  split; [|unfold GR; autorewrite with gst; by apply prefix_app_r].
  split_and!.
  - intros k i o. autorewrite with gst. apply H1.
  - intros i o. autorewrite with gst. apply H2.
  - intros f i l'. autorewrite with gst. apply H3.
  - unfold trace_ok. autorewrite with gst. by apply trace_split.
  - intros f i Hi. unfold get_object_list. autorewrite with gst.
    rewrite since_wipe_app by (eapply Forall_impl; [exact Hq|]; by intros []).
    rewrite befores_app, (befores_quiet i l Hq), app_nil_r. by apply H5.
Qed.

Lemma GI_trace1 s e : quiet e -> evt_ok (t_trace s) e -> GI s -> GI (add_trace s [e]) /\ GR s (add_trace s [e]).
Proof.
  intros Hq He. apply GI_trace; [by constructor|]. intros a e' b Hl.
  destruct a as [|x a]; [|by destruct a]. injection Hl as <- <-. by rewrite app_nil_r.
Qed.

Lemma GI_inserted s g k : verify cc g = Accept -> obj_kind g = KObj k -> GI s ->
  keeps GI GR s (inserted s k g) /\ GD g (inserted s k g).
Proof.
  intros Hv Hk HI. apply obj_kind_obj in Hk.
  assert (GI (set_tbl s k (<[get_id g := g]> (get_tbl s k))) /\ GR s (set_tbl s k (<[get_id g := g]> (get_tbl s k)))) as [J1 J2].
  { destruct HI as (H1 & H2 & H3 & H4 & H5). split; [|unfold GR; by autorewrite with gst]. split_and!.
    - intros k' i o. rewrite get_tbl_set_tbl. destruct (decide (k = k')) as [<-|]; [|apply H1].
      rewrite lookup_insert_Some. intros [[<- <-]|[_ Ho]]; [done|]. by apply H1.
    - intros i o. autorewrite with gst. apply H2.
    - intros f i l'. autorewrite with gst. apply H3.
    - unfold trace_ok. autorewrite with gst. apply H4.
    - intros f i Hi. unfold get_object_list. autorewrite with gst. by apply H5. }
  unfold inserted. edestruct (GI_trace1 (set_tbl s k (<[get_id g := g]> (get_tbl s k))) (EvStored g)) as [J3 J4]; [done| |done|].
  { split; [done|]. by exists k. }
  split; [split; [done|]|].
  - unfold GR in *. by etransitivity.
  - unfold GD. autorewrite with gst. apply elem_of_app. right. by left.
Qed.

Lemma GI_reads s g f : obj_kind g = KFrag f -> GI s -> keeps GI GR s (read_and_store cfg f g s).1.
Proof.
  intros Hk (H1 & H2 & H3 & H4 & H5). apply obj_kind_frag in Hk. unfold read_and_store. cbn [fst].
  set (l := get_object_list s (get_id g) f). set (s' := if Nat.ltb (length l) T then _ else s).
  assert (t_trace s' = t_trace s) as Et by (unfold s'; destruct (Nat.ltb _ _); by autorewrite with gst).
  assert (forall k, get_tbl s' k = get_tbl s k) as Etb by (intros k; unfold s'; destruct (Nat.ltb _ _); by autorewrite with gst).
  assert (t_payload s' = t_payload s) as Ep by (unfold s'; destruct (Nat.ltb _ _); by autorewrite with gst).
  assert (forall f' i, get_frags s' f' !! i =
     if Nat.ltb (length l) T then if decide (f = f' /\ i = get_id g) then Some (l ++ [g])%list else get_frags s f' !! i
     else get_frags s f' !! i) as Ef.
  { intros f' i. unfold s'. destruct (Nat.ltb _ _); [|done]. rewrite get_frags_set_frags.
    destruct (decide (f = f')) as [<-|]; [|by rewrite decide_False by naive_solver].
    destruct (decide (i = get_id g)) as [->|].
    - rewrite lookup_insert, decide_True by done. done.
    - rewrite lookup_insert_ne, decide_False by naive_solver. done. }
  split; [|unfold GR; autorewrite with gst; rewrite Et; by apply prefix_app_r].
  split_and!.
  - intros k i o. autorewrite with gst. rewrite Etb. apply H1.
  - intros i o. autorewrite with gst. rewrite Ep. apply H2.
  - intros f' i l'. autorewrite with gst. rewrite Ef. destruct (Nat.ltb_spec (length l) T) as [Hl|]; [|apply H3].
    destruct (decide _) as [[<- ->]|]; [|apply H3]. intros [= <-]. rewrite app_length. cbn. split; [lia|].
    intros o Ho. apply in_app_or in Ho as [Ho|[<-|[]]]; [|done].
    unfold l, get_object_list, frags_at in Ho. destruct (get_frags s f !! get_id g) as [l0|] eqn:E0; [|done].
    by apply (H3 f (get_id g) l0 E0).
  - unfold trace_ok. autorewrite with gst. rewrite Et. apply trace_split; [done|].
    intros a e b Hl. destruct a as [|x a]; [|by destruct a]. by injection Hl as <- <-.
  - intros f' i Hi. autorewrite with gst. rewrite Et, since_wipe_snoc, befores_app.
    unfold get_object_list, frags_at. autorewrite with gst. rewrite Ef.
    specialize (H5 f' i Hi). cbn zeta in H5. unfold get_object_list, frags_at in H5.
    set (bl := befores i (since_wipe (t_trace s))) in *. destruct H5 as [H5 H6].
    destruct (decide (get_id g = i)) as [<-|Hne].
    + assert (f' = f) as -> by (cbn in Hi; rewrite Hk in Hi; by destruct f, f').
      rewrite befores_one, decide_True by done.
      change (length (get_object_list s (get_id g) f) = min (length bl) T) in H6. fold l in H6.
      split.
      * rewrite app_length. cbn [length]. rewrite Nat.add_1_r, seq_S, map_app. cbn. by rewrite <- H5, H6.
      * rewrite app_length. cbn [length]. destruct (Nat.ltb_spec (length l) T) as [Hl|Hl].
        -- rewrite decide_True by done. rewrite app_length. cbn [length]. lia.
        -- change (length l = min (length bl + 1) T). lia.
    + rewrite befores_one, decide_False by done. rewrite app_nil_r.
      split; [done|]. destruct (Nat.ltb _ _); [|done]. rewrite decide_False by naive_solver. done.
Qed.

Lemma walk_GI : walk_ok cfg GI GR Gtok (λ w, w = NilDeref) (λ _ _, True) GD.
Proof.
  split.
  - split; [intros s; unfold GR; reflexivity|]. intros a b c H1 H2. unfold GR in *. by etransitivity.
  - intros [g] s s' [H1 H2] [l E]. split; [|done]. unfold GD. rewrite E. apply elem_of_app. by left.
  - done.
  - intros g s s' H1 [l E]. unfold GD. rewrite E. apply elem_of_app. by left.
  - intros s g k _ HI _ Hv Hk _. by apply GI_inserted.
  - intros s g f HI _ Hv Hk. by apply GI_inserted.
  - intros s g HI _ _ _ _. apply GI_frame; auto; intros; by autorewrite with gst.
  - intros s HI. apply GI_frame; auto; intros; by autorewrite with gst.
  - intros s HI. apply GI_frame; auto; intros; by autorewrite with gst.
  - intros s g HI _ Hv Hk. destruct HI as (H1 & H2 & H3 & H4 & H5).
    split; [|unfold GR; by autorewrite with gst]. split_and!.
    + intros k i o. autorewrite with gst. apply H1.
    + intros i o. autorewrite with gst. rewrite lookup_insert_Some. intros [[<- <-]|[_ Ho]]; [|by apply H2].
      apply obj_kind_obj in Hk. done.
    + intros f i l'. autorewrite with gst. apply H3.
    + unfold trace_ok. autorewrite with gst. apply H4.
    + intros f i Hi. unfold get_object_list. autorewrite with gst. by apply H5.
  - intros s g f HI _ Hk. by apply GI_reads.
  - intros s g k HI _ HD Hv Hk Hk'.
    assert (relayed g) as Hr.
    { apply obj_kind_obj in Hk. unfold relayed. rewrite Hk. destruct Hk' as [ -> | [ -> | -> ]]; cbn; auto. }
    split.
    + apply GI_trace; auto.
      * unfold sends. apply Forall_map, Forall_true. by intros.
      * intros a e b E. assert (e ∈ sends cfg g) as He by (rewrite E; apply elem_of_app; right; left).
        unfold sends in He. apply elem_of_list_fmap in He as (url & -> & _). unfold outgoing. rewrite Hk.
        destruct Hk' as [ -> | [ -> | -> ]]; cbn; auto. destruct (oversized cfg g); cbn; auto.
    + apply GI_trace1; cbn; auto.
  - intros s g f HI _ Hk. apply GI_trace; auto.
    * unfold sends. apply Forall_map, Forall_true. by intros.
    * intros a e b E. assert (e ∈ sends cfg g) as He by (rewrite E; apply elem_of_app; right; left).
      unfold sends in He. apply elem_of_list_fmap in He as (url & -> & _). unfold outgoing. rewrite Hk.
      assert (is_frag g) as Hf by (apply is_frag_kind; eauto).
      destruct f; cbn; auto. left. destruct (oversized cfg g); [|done]. by destruct g.
  - intros s g f HI _ Hk. apply GI_trace1; auto; [done|]. cbn. left. apply is_full_kind. eauto.
  - intros s g f HI _ HD Hv Hk Hf. split; [done|]. apply is_init_kind. eauto.
  - intros s0 s g sf [HD Hi] I0 Hb HR HI Hs. cbn zeta. split; [|done]. apply GI_trace1; auto; [done|]. cbn.
    split_and!; auto. eauto.
  - intros s0 s g sf _ HD Hv Hk I0 Hb HR HI Hs. cbn zeta. split; [|done]. apply GI_trace1; auto; [done|]. cbn.
    split_and!; auto; [apply is_init_kind; eauto|]. eauto.
  - done.
  - intros s0 s s' g f l g0 ts Hk I0 _ HT HR HI -> Ha Hh HR' HI' period stamp _. cbn zeta. split; [|done].
    apply GI_trace1; auto; [done|]. cbn. split.
    + apply is_full_kind. exists f. unfold obj_kind. cbn. by apply target_kind.
    + rewrite map_length. destruct HI as (_ & _ & H3 & _).
      unfold cc_thr_aggregate in Ha. destruct (String.eqb _ _); [|done]. unfold thr_aggregate in Ha.
      destruct (Nat.ltb_spec (length (frags_of (P:=P) (get_object_list s (get_id g) f))) T) as [|Hl]; [done|].
      unfold frags_of in Hl. rewrite map_length in Hl. unfold get_object_list, frags_at in *.
      destruct (get_frags s f !! get_id g) as [l|] eqn:E; [|done]. apply H3 in E as [E _]. lia.
  - done.
  - done.
  - done.
Qed.

Lemma GI_init a b c : GI (init_gst a b c).
Proof.
  split_and!.
  - intros k i o. destruct k as [[]| |[]]; cbn; by rewrite lookup_empty.
  - intros i o. cbn. by rewrite lookup_empty.
  - intros f i l. destruct f; cbn; by rewrite lookup_empty.
  - intros x e y. cbn. by destruct x.
  - intros f i Hi. cbn. split; [done|]. unfold get_object_list, frags_at. destruct f; cbn; by rewrite lookup_empty.
Qed.

Lemma GI_replace s : GI s -> keeps GI GR s (replace_storage s).1.
Proof.
  intros (H1 & H2 & H3 & H4 & H5). split; [|unfold GR; autorewrite with gst; by apply prefix_app_r]. split_and!.
  - intros k i o. autorewrite with gst. by rewrite lookup_empty.
  - intros i o. autorewrite with gst. by rewrite lookup_empty.
  - intros f i l. autorewrite with gst. by rewrite lookup_empty.
  - unfold trace_ok. autorewrite with gst. apply trace_split; [done|].
    intros a e b Hl. destruct a as [|x a]; [|by destruct a]. by injection Hl as <- <-.
  - intros f i Hi. unfold get_object_list, frags_at. autorewrite with gst. rewrite since_wipe_snoc, lookup_empty. done.
Qed.

Lemma GI_restore s0 s : GI s0 -> GI s -> keeps GI GR s (set_tbl s OCon (get_tbl s0 OCon)).
Proof.
  intros I0 (H1 & H2 & H3 & H4 & H5). split; [|unfold GR; by autorewrite with gst]. split_and!.
  - intros k i o. rewrite get_tbl_set_tbl. destruct (decide _) as [<-|]; [apply I0|apply H1].
  - intros i o. autorewrite with gst. apply H2.
  - intros f i l. autorewrite with gst. apply H3.
  - unfold trace_ok. by autorewrite with gst.
  - intros f i Hi. unfold get_object_list. autorewrite with gst. by apply H5.
Qed.

Lemma periodic_GI s : safe GI GR Gtok (λ w, w = NilDeref) (λ _ _, True) periodic s.
Proof.
  eapply s_periodic; [exact walk_GI|..].
  - intros s1 e HI. apply GI_frame; auto; intros; by autorewrite with gst.
  - apply GI_replace.
  - intros s0 s1 I0 HR HI. by apply GI_restore.
  - intros s1 HI. apply GI_frame; auto; intros; by autorewrite with gst.
  - intros s0 s1 I0 HR HI. apply GI_frame; auto; intros; by autorewrite with gst.
Qed.

Lemma reachable_GI a b c y : gpsteps cfg (init_pool a b c) y ->
  GI (p_st y) /\ Forall (λ w, w = NilDeref) (p_crashes y).
Proof.
  intros Hs.
  assert (pool_ok GI GR Gtok (λ w, w = NilDeref) y) as (HI & _ & _ & HC); [|done].
  eapply pool_steps; [| | | | |exact Hs|].
  - apply (w_pre _ _ _ _ _ _ _ walk_GI).
  - apply (w_tok _ _ _ _ _ _ _ walk_GI).
  - intros t s Ht. by eapply s_start; [exact walk_GI|].
  - intros p s Hp HI. destruct Hp.
    + by eapply s_object; [exact walk_GI|..].
    + eapply s_notification; [exact walk_GI|]. intros. by apply GI_trace1.
    + eapply s_request; [exact walk_GI|]. intros s0 s2 i o url I0 Ho HR HI2. apply GI_trace1; auto; [done|]. cbn. right.
      destruct I0 as (_ & H2 & _). apply H2 in Ho as (Hv & _ & Ht). split; [done|]. right. by left.
    + apply periodic_GI.
  - intros s s' (p & sec & st & ->) HI. apply GI_frame; auto; intros; by autorewrite with gst.
  - split_and!; cbn; auto. apply GI_init.
Qed.
End inv.
