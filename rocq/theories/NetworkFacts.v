(** The invariant of an honest network, what it gives when nothing is
    on its way, and the amount of traffic. *)
From Verif Require Import Bytes Hex Json Types Crypto Verify Prog Gossiper Network SpecCodec SpecVerify SpecGossiper SpecNetwork ProgFacts GstFacts CodecFacts CryptoFacts WireFacts VerifyFacts GWalk GossiperInv GossiperSeq GossiperEvidence GossiperStep GossiperFrag GossiperMore NetworkNode.
From Coq Require Import Lia.
Open Scope string_scope.

Lemma elem_of_delete_or {A} (l : list A) i x q : l !! i = Some x -> q ∈ l -> q ∈ delete i l \/ q = x.
Proof.
  revert i. induction l as [|a l IH]; intros i Hx Hq; [done|]. destruct i as [|i].
  - injection Hx as ->. apply elem_of_cons in Hq as [->|Hq]; [by right|by left].
  - apply elem_of_cons in Hq as [->|Hq]; [left; by left|]. destruct (IH i Hx Hq); [left; by right|by right].
Qed.

Lemma elem_of_delete {A} (l : list A) i q : q ∈ delete i l -> q ∈ l.
Proof.
  revert i. induction l as [|a l IH]; intros i Hq; [by destruct i|]. destruct i as [|i]; [by right|].
  apply elem_of_cons in Hq as [->|Hq]; [by left|right; by eapply IH].
Qed.

Fixpoint sumf {A} (f : A -> nat) (l : list A) : nat := match l with [] => 0 | x :: r => f x + sumf f r end.

Lemma sumf_ext {A} (f g : A -> nat) l : (forall x, x ∈ l -> f x = g x) -> sumf f l = sumf g l.
Proof.
  induction l as [|a l IH]; intros H; [done|]. cbn. rewrite IH; [|intros; apply H; by right]. rewrite (H a); [done|by left].
Qed.

Lemma sumf_update {A} (f g : A -> nat) l u : NoDup l -> u ∈ l -> (forall x, x ∈ l -> x <> u -> f x = g x) ->
  sumf f l + g u = sumf g l + f u.
Proof.
  induction 1 as [|a l Ha Hl IH]; intros Hu H; [by apply elem_of_nil in Hu|]. cbn. apply elem_of_cons in Hu as [->|Hu].
  - rewrite (sumf_ext f g l); [lia|]. intros x Hx. apply H; [by right|]. by intros ->.
  - rewrite (H a); [|by left|by intros ->]. assert (sumf f l + g u = sumf g l + f u) by (apply IH; auto; intros; apply H; auto; by right). lia.
Qed.

Lemma sumf_const {A} k (l : list A) : sumf (λ _, k) l = length l * k.
Proof. induction l; cbn; lia. Qed.

Lemma sumf_zero {A} (f : A -> nat) (l : list A) : (forall x, x ∈ l -> f x = 0) -> sumf f l = 0.
Proof. intros H. rewrite (sumf_ext f (λ _, 0)) by done. rewrite sumf_const. lia. Qed.

Lemma nodup_subset_length {A} `{EqDecision A} (l k : list A) : NoDup l -> (forall x, x ∈ l -> x ∈ k) -> length l <= length k.
Proof. intros Hn Hs. apply NoDup_incl_length; [by apply NoDup_ListNoDup|]. intros x Hx. apply elem_of_list_In. by apply Hs, elem_of_list_In. Qed.

Section net.
Context {P : prims} (cfgs : gmap string (gconf P)) (T : nat) (p : string) (Gs : list gobj).
Context (HN : honest_network cfgs T) (HG : valid_statements cfgs p Gs).
Context (Hagg : agg_correct P) (Hperm : fast_perm P) (Hdeser : forall sg : bls_sig P, bls_deser (bls_ser sg) = Some sg).

Notation st_ok := (st_ok cfgs T p Gs).
Notation bucket := (bucket p).

Definition node_ok (c : gconf P) (y : gsys) : Prop :=
  st_ok c (s_st y) /\ s_crashes y = [] /\ forall t, t ∈ s_tasks y -> exists g, g ∈ Gs /\ t = SignLater g /\ EvStored g ∈ t_trace (s_st y).

Definition init_post (v : string) (g : gobj) : post := mkpost v (init_path g) (MObj g).
Definition frag_post (v : string) (g o : gobj) : post := mkpost v (frag_path g) (MObj o).

Lemma paths_differ g h : init_path g <> frag_path h.
Proof using. unfold init_path, frag_path, fm. by destruct (decide (g_type g = STH_INIT)), (decide (g_type h = STH_INIT)). Qed.
Lemma paths_known g : init_path g ∈ object_paths /\ frag_path g ∈ object_paths.
Proof using. unfold init_path, frag_path, fm. destruct (decide _); split; apply (bool_decide_unpack _); reflexivity. Qed.

Definition settled (y : gsys) (g o : gobj) : Prop := o ∈ bucket (s_st y) g \/ length (bucket (s_st y) g) = T.

(** What one event does to one gossiper; [base] are the old timers that
    are still pending. *)
Inductive outcome (c : gconf P) (y y' : gsys) (out : list post) (base : list gtask) : Prop :=
| oc_idle : (forall f, get_tbl (s_st y') (OInit f) = get_tbl (s_st y) (OInit f)) -> (forall h, h ∈ Gs -> bucket (s_st y') h = bucket (s_st y) h) ->
    s_tasks y' = base -> out = [] -> outcome c y y' out base
| oc_head g : g ∈ Gs -> ~ holds (s_st y) g -> (forall h, h ∈ Gs -> holds (s_st y') h <-> holds (s_st y) h \/ h = g) ->
    (forall h, h ∈ Gs -> bucket (s_st y') h = bucket (s_st y) h) -> s_tasks y' = (base ++ [SignLater g])%list ->
    out = map (λ v, init_post v g) (gc_neighbours c) -> outcome c y y' out base
| oc_frag g v d : g ∈ Gs -> cfgs !! v = Some d -> (forall f, get_tbl (s_st y') (OInit f) = get_tbl (s_st y) (OInit f)) ->
    the_frag d g ∉ bucket (s_st y) g -> length (bucket (s_st y) g) < T -> bucket (s_st y') g = (bucket (s_st y) g ++ [the_frag d g])%list ->
    (forall h, h ∈ Gs -> h <> g -> bucket (s_st y') h = bucket (s_st y) h) -> s_tasks y' = base ->
    out = map (λ w, frag_post w g (the_frag d g)) (gc_neighbours c) -> outcome c y y' out base.

Definition out_of (y y' : gsys) : list post := posts (drop (length (t_trace (s_st y))) (t_trace (s_st y'))).

Lemma out_suffix y y' suf : t_trace (s_st y') = (t_trace (s_st y) ++ suf)%list -> out_of y y' = posts suf.
Proof. intros E. unfold out_of. rewrite E. by rewrite drop_app. Qed.

Notation size_of g := (Z.of_nat (len (gobj_marshal g))).

Lemma plain_head u c g s : cfgs !! u = Some c -> g ∈ Gs -> run (object_handler c (size_of g) g) s = run (handle c g) s.
Proof using HG.
  intros Hu Hg. unfold object_handler. rewrite (head_kind cfgs p Gs HG g Hg).
  rewrite (bool_decide_eq_false_2 (KObj (OInit (fm g)) = KFrag Rev)) by done. rewrite andb_false_r.
  assert (Z.ltb (gc_opt_threshold c) (size_of g) && bool_decide (KObj (OInit (fm g)) = KObj (OInit Rev)) = false) as ->; [|done].
  destruct (bool_decide_reflect (KObj (OInit (fm g)) = KObj (OInit Rev))) as [E|]; [|by rewrite andb_false_r].
  unfold fm in E. destruct (decide (g_type g = STH_INIT)); [done|]. destruct (vs_type _ _ _ HG g Hg) as ([Et|Et] & _); [done|].
  destruct (vs_small _ _ _ HG g u c u c Hg Et Hu Hu) as (_ & H & _). rewrite andb_true_r. by apply Z.ltb_ge.
Qed.

Lemma plain_frag u c v d n g s : cfgs !! u = Some c -> cfgs !! v = Some d -> g ∈ Gs -> 
  run (object_handler c n (the_frag d g)) s = run (handle c (the_frag d g)) s.
Proof using HG.
  intros Hu Hv Hg. unfold object_handler. rewrite (proj1 (frag_fields cfgs p Gs HG d g Hg)).
  rewrite (bool_decide_eq_false_2 (KFrag (fm g) = KObj (OInit Rev))) by done. rewrite andb_false_r.
  assert (gc_opt_mode c && bool_decide (KFrag (fm g) = KFrag Rev) = false) as ->; [|done].
  destruct (bool_decide_reflect (KFrag (fm g) = KFrag Rev)) as [E|]; [|by rewrite andb_false_r].
  unfold fm in E. destruct (decide (g_type g = STH_INIT)); [done|]. destruct (vs_type _ _ _ HG g Hg) as ([Et|Et] & _); [done|].
  destruct (vs_small _ _ _ HG g u c v d Hg Et Hu Hv) as (-> & _). done.
Qed.

Lemma recv_head u c y g : cfgs !! u = Some c -> node_ok c y -> g ∈ Gs ->
  let y' := step c y (Recv (size_of g) g) in node_ok c y' /\ outcome c y y' (out_of y y') (s_tasks y) /\ holds (s_st y') g.
Proof using All.
  intros Hu (Hst & Hcr & Htk) Hg. cbn [step]. unfold exec. rewrite (plain_head u) by done.
  destruct (on_head cfgs T p Gs HN HG Hagg Hperm Hdeser u c (s_st y) g Hu Hst Hg) as [[Hh ->]|(Hh & s' & suf & -> & Hst' & Hh' & Hb & Et & Hs & Hp)]; cbn zeta; cbn [s_st s_tasks s_crashes].
  - rewrite app_nil_r. split; [done|]. split; [|done]. constructor 1; auto. by erewrite (out_suffix _ _ []) by (by rewrite app_nil_r).
  - split; [split; [|split]|split].
    + done.
    + done.
    + cbn. intros t Ht. apply elem_of_app in Ht as [Ht|Ht].
      * destruct (Htk t Ht) as (h & ? & ? & ?). exists h. split_and!; auto. rewrite Et. apply elem_of_app. by left.
      * apply elem_of_list_singleton in Ht as ->. exists g. split_and!; auto. rewrite Et. apply elem_of_app. by right.
    + apply (oc_head _ _ _ _ _ g); auto. erewrite out_suffix by exact Et. exact Hp.
    + cbn. apply Hh'; auto.
Qed.

Lemma own_frag (c : gconf P) y s ts crs g v d : forall u, cfgs !! u = Some c -> cfgs !! v = Some d -> g ∈ Gs -> st_ok c s ->
  s_crashes y = [] -> (forall t, t ∈ ts -> exists h, h ∈ Gs /\ t = SignLater h /\ EvStored h ∈ t_trace s) ->
  (exists pre, t_trace s = (t_trace (s_st y) ++ pre)%list /\ posts pre = []) -> (forall f, get_tbl s (OInit f) = get_tbl (s_st y) (OInit f)) ->
  (forall h, bucket s h = bucket (s_st y) h) -> crs = [] ->
  exists s', run (handle c (the_frag d g)) s = (s', [], Done tt) /\
  let y' := mkgsys s' ts crs in node_ok c y' /\ outcome c y y' (out_of y y') ts /\ settled y' g (the_frag d g).
Proof using All.
  intros u Hu Hv Hg Hst Hcr Hts (pre & Epre & Ppre) Ei Eb Ecrs.
  destruct (on_frag cfgs T p Gs HN HG Hagg Hperm Hdeser u c s v d g Hu Hv Hst Hg) as (s' & suf & Hr & Hst' & Ei' & Et & Hcase).
  exists s'. split; [exact Hr|]. cbn zeta. split.
  { split; [done|split; [done|]]. cbn. intros t Ht. destruct (Hts t Ht) as (h & ? & ? & ?). exists h. split_and!; auto. rewrite Et. apply elem_of_app. by left. }
  assert (out_of y (mkgsys s' ts crs) = posts suf) as Eo.
  { erewrite (out_suffix _ _ (pre ++ suf)%list) by (cbn; by rewrite Et, Epre, <- app_assoc). by rewrite posts_app, Ppre. }
  destruct Hcase as [(Hc & Hb & Hp)|(Hc & Hlt & Hb & Hbo & Hp)].
  - split.
    + constructor 1; auto; cbn [s_st]; [intros f; by rewrite Ei'| |congruence]. intros h Hh. by rewrite Hb, Eb.
    + unfold settled. cbn. rewrite Hb. exact Hc.
  - split.
    + apply (oc_frag _ _ _ _ _ g v d); auto; cbn [s_st]; try rewrite <- Eb; auto; [intros f; by rewrite Ei'| |].
      * intros h Hh Hn. rewrite Hbo, Eb by done. done.
      * rewrite Eo, Hp. done.
    + left. cbn. rewrite Hb. apply elem_of_app. right. by left.
Qed.

Lemma recv_frag u c y n g v d : cfgs !! u = Some c -> cfgs !! v = Some d -> node_ok c y -> g ∈ Gs ->
  let y' := step c y (Recv n (the_frag d g)) in
  node_ok c y' /\ outcome c y y' (out_of y y') (s_tasks y) /\ settled y' g (the_frag d g).
Proof using All.
  intros Hu Hv (Hst & Hcr & Htk) Hg. cbn [step]. unfold exec. rewrite (plain_frag u c v d n g) by done.
  destruct (own_frag c y (s_st y) (s_tasks y) [] g v d u Hu Hv Hg Hst Hcr Htk) as (s' & -> & H); auto.
  { exists []. by rewrite app_nil_r. }
  cbn zeta. rewrite app_nil_r, Hcr. exact H.
Qed.

Lemma fire_one u c y i g : cfgs !! u = Some c -> node_ok c y -> nth_error (s_tasks y) i = Some (SignLater g) -> g ∈ Gs ->
  let y' := step c y (Fire i) in
  node_ok c y' /\ outcome c y y' (out_of y y') (take i (s_tasks y) ++ drop (S i) (s_tasks y))%list /\ settled y' g (the_frag c g).
Proof using All.
  intros Hu (Hst & Hcr & Htk) Hi Hg. cbn [step]. rewrite Hi. unfold exec, start_task. cbn [pbind pread run].
  unfold in_blacklist. rewrite (so_black _ _ _ _ _ _ Hst), bool_decide_eq_false_2 by set_solver.
  unfold generate_frag. assert (cc_thr_sign (gc_crypto c) (signed_msg g) = Some (the_sig c g)) as ->.
  { unfold cc_thr_sign. by rewrite (hn_scheme _ _ HN u c Hu). }
  cbn [pbind pmodify run]. change (frag_of c g (sigfrag_string (the_sig c g))) with (the_frag c g).
  set (s1 := add_trace (s_st y) [EvSigned g (the_frag c g)]).
  assert (SignLater g ∈ s_tasks y) as Hin by (apply elem_of_list_In; by eapply nth_error_In).
  destruct (Htk _ Hin) as (g' & _ & [= <-] & Hev).
  assert (forall t, t ∈ (take i (s_tasks y) ++ drop (S i) (s_tasks y))%list -> exists h, h ∈ Gs /\ t = SignLater h /\ EvStored h ∈ t_trace s1) as Hts.
  { intros t Ht. destruct (Htk t) as (h & ? & ? & ?).
    - rewrite elem_of_app in Ht. destruct Ht as [Ht|Ht]; [by eapply elem_of_take in Ht as (? & ?%elem_of_list_lookup_2 & _)|].
      apply elem_of_list_lookup in Ht as (j & Hj). rewrite lookup_drop in Hj. by eapply elem_of_list_lookup_2.
    - exists h. split_and!; auto. unfold s1. autorewrite with gst. apply elem_of_app. by left. }
  assert (st_ok c s1) as Hst1.
  { destruct Hst as [HI Hb Hp Hini Hfr Hnd Hfu Hno].
    assert (forall e, e ∈ t_trace (s_st y) -> e ∈ t_trace s1) as Hsub by (intros e He; unfold s1; autorewrite with gst; apply elem_of_app; by left).
    assert (forall h, bucket s1 h = bucket (s_st y) h) as Eb by (intros h; unfold NetworkNode.bucket, get_object_list, s1; by autorewrite with gst).
    assert (forall k, get_tbl s1 k = get_tbl (s_st y) k) as Etb by (intros k; unfold s1; by autorewrite with gst).
    assert (forall h, fulls s1 h = fulls (s_st y) h) as Ef by (intros h; apply Etb).
    split.
    - apply (GI_trace1 c (s_st y) (EvSigned g (the_frag c g))); auto; [done|]. cbn. split_and!; auto.
      + apply is_init_kind. exists (fm g). by eapply head_kind.
      + exists (the_sig c g). split; [|done]. unfold cc_thr_sign. by rewrite (hn_scheme _ _ HN u c Hu).
    - unfold s1. by autorewrite with gst.
    - unfold s1. by autorewrite with gst.
    - intros f j o Hf. rewrite Etb. intros Ho. destruct (Hini f _ _ Hf Ho). auto.
    - intros h o. rewrite Eb. apply Hfr.
    - intros h. rewrite Eb. apply Hnd.
    - intros h Hh. rewrite Eb, Ef. intros Hl. destruct (Hfu h Hh Hl) as (full & ? & ? & ? & ? & ? & ? & ? & ?). exists full. split_and!; auto.
    - intros h Hh. rewrite Eb, Ef. by apply Hno. }
  destruct (own_frag c y s1 (take i (s_tasks y) ++ drop (S i) (s_tasks y)) [] g u c u Hu Hu Hg Hst1 Hcr Hts) as (s' & -> & H); auto.
  - exists [EvSigned g (the_frag c g)]. unfold s1. by autorewrite with gst.
  - intros f. unfold s1. by autorewrite with gst.
  - intros h. unfold NetworkNode.bucket, get_object_list, s1. by autorewrite with gst.
  - cbn zeta. rewrite app_nil_r, Hcr. exact H.
Qed.

(** ** Consequences of an outcome *)
Lemma oc_holds c y y' out base h : outcome c y y' out base -> h ∈ Gs -> holds (s_st y) h -> holds (s_st y') h.
Proof using. intros [E1 _ _ _|g ? ? H _ _ _|g v d ? ? E1 _ _ _ _ _ _] Hh Hy; unfold holds in *; [by rewrite E1|apply H; auto|by rewrite E1]. Qed.

Lemma oc_settled c y y' out base h o : outcome c y y' out base -> h ∈ Gs -> settled y h o -> settled y' h o.
Proof using.
  intros Ho Hh Hs. unfold settled in *. destruct Ho as [_ E _ _|g _ _ _ E _ _|g v d ? ? _ _ Hl E E' _ _].
  - by rewrite E.
  - by rewrite E.
  - destruct (decide (h = g)) as [->|Hn].
    + destruct Hs as [Hs|Hs]; [|lia]. left. rewrite E. apply elem_of_app. by left.
    + by rewrite E'.
Qed.

Lemma oc_new_holds c y y' out base h : outcome c y y' out base -> h ∈ Gs -> holds (s_st y') h ->
  holds (s_st y) h \/ ((forall v, v ∈ gc_neighbours c -> init_post v h ∈ out) /\ SignLater h ∈ s_tasks y').
Proof using.
  intros [E1 _ _ _|g ? ? H _ Et ->|g v d ? ? E1 _ _ _ _ _ _] Hh Hy.
  - left. unfold holds in *. by rewrite <- E1.
  - apply H in Hy as [Hy| ->]; [by left| |done]. right. split.
    + intros v Hv. apply elem_of_list_fmap. by exists v.
    + rewrite Et. apply elem_of_app. right. by left.
  - left. unfold holds in *. by rewrite <- E1.
Qed.

Lemma oc_new_frag c y y' out base h o : outcome c y y' out base -> h ∈ Gs -> o ∈ bucket (s_st y') h ->
  o ∈ bucket (s_st y) h \/ (forall v, v ∈ gc_neighbours c -> frag_post v h o ∈ out).
Proof using.
  intros [_ E _ _|g _ _ _ E _ _|g v d ? ? _ _ Hl E E' _ ->] Hh Ho.
  - left. by rewrite <- E.
  - left. by rewrite <- E.
  - destruct (decide (h = g)) as [->|Hn].
    + rewrite E in Ho. apply elem_of_app in Ho as [Ho|Ho]; [by left|right]. apply elem_of_list_singleton in Ho as ->.
      intros w Hw. apply elem_of_list_fmap. by exists w.
    + left. by rewrite <- E'.
Qed.

Lemma oc_tasks c y y' out base t : outcome c y y' out base -> t ∈ base -> t ∈ s_tasks y'.
Proof using. intros [_ _ -> _|g _ _ _ _ -> _|g v d ? ? _ _ Hl E E' -> _] Ht; auto. apply elem_of_app. by left. Qed.

Definition good_post (q : post) : Prop := is_Some (cfgs !! po_to q) /\ exists g, g ∈ Gs /\
  (q = init_post (po_to q) g \/ exists v d, cfgs !! v = Some d /\ q = frag_post (po_to q) g (the_frag d g)).

Lemma oc_out u c y y' out base q : cfgs !! u = Some c -> outcome c y y' out base -> q ∈ out -> good_post q.
Proof using HN.
  intros Hu [_ _ _ ->|g Hg _ _ _ _ ->|g v d Hg Hv _ _ Hl E E' _ ->] Hq.
  - by apply elem_of_nil in Hq.
  - apply elem_of_list_fmap in Hq as (w & -> & Hw). split; [by apply (hn_connected _ _ HN u c Hu)|]. exists g. split; [done|]. by left.
  - apply elem_of_list_fmap in Hq as (w & -> & Hw). split; [by apply (hn_connected _ _ HN u c Hu)|]. exists g. split; [done|]. right. by exists v, d.
Qed.

(** ** The invariant *)
Record NI (N : net) : Prop := mkNI {
  ni_dom : forall u, is_Some (nt_nodes N !! u) <-> is_Some (cfgs !! u);
  ni_node : forall u c y, cfgs !! u = Some c -> nt_nodes N !! u = Some y -> node_ok c y;
  ni_post : forall q, q ∈ nt_flight N -> good_post q;
  ni_heads : forall u v y z g, u <> v -> nt_nodes N !! u = Some y -> nt_nodes N !! v = Some z -> g ∈ Gs ->
    holds (s_st y) g -> init_post v g ∈ nt_flight N \/ holds (s_st z) g;
  ni_frags : forall u v y z g o, u <> v -> nt_nodes N !! u = Some y -> nt_nodes N !! v = Some z -> g ∈ Gs ->
    o ∈ bucket (s_st y) g -> frag_post v g o ∈ nt_flight N \/ settled z g o;
  ni_sign : forall u c y g, cfgs !! u = Some c -> nt_nodes N !! u = Some y -> g ∈ Gs ->
    holds (s_st y) g -> SignLater g ∈ s_tasks y \/ settled y g (the_frag c g)
}.

Lemma preserve N u c y y' F base : NI N -> cfgs !! u = Some c -> nt_nodes N !! u = Some y -> node_ok c y' ->
  outcome c y y' (out_of y y') base ->
  (forall q, q ∈ F -> q ∈ nt_flight N) ->
  (forall q, q ∈ nt_flight N -> q ∈ F \/ (forall v h, h ∈ Gs -> q = init_post v h -> v = u /\ holds (s_st y') h) /\
     (forall v h o, h ∈ Gs -> q = frag_post v h o -> get_id o = frag_id p h -> v = u /\ settled y' h o)) ->
  (forall t, t ∈ s_tasks y -> t ∈ base \/ forall h, h ∈ Gs -> t = SignLater h -> settled y' h (the_frag c h)) ->
  NI (mknet (<[u := y']> (nt_nodes N)) (F ++ out_of y y')).
Proof using All.
  intros [D1 D2 D3 D4 D5 D6] Hu Hy Hok Ho HF Hq Ht.
  assert (forall v z, <[u:=y']> (nt_nodes N) !! v = Some z -> (v = u /\ z = y') \/ (v <> u /\ nt_nodes N !! v = Some z)) as Hl.
  { intros v z. rewrite lookup_insert_Some. intros [[<- <-]|[? ?]]; auto. }
  split; cbn [nt_nodes nt_flight].
  - intros v. destruct (decide (v = u)) as [->|Hn].
    + rewrite lookup_insert, Hu. split; by eexists.
    + by rewrite lookup_insert_ne.
  - intros v d z Hd Hz. destruct (Hl v z Hz) as [[-> ->]|[_ Hz']]; [by simplify_eq|by eapply D2].
  - intros q Hin. apply elem_of_app in Hin as [Hin|Hin]; [by apply D3, HF|by eapply oc_out].
  - intros v w z x h Hne Hz Hx Hh Hs.
    assert (forall z0, nt_nodes N !! v = Some z0 -> holds (s_st z0) h -> init_post w h ∈ (F ++ out_of y y')%list \/ holds (s_st x) h) as Hold.
    { intros z0 Hz0 Hs0. destruct (Hl w x Hx) as [[-> ->]|[Hw Hx']].
      - destruct (D4 v u z0 y h Hne Hz0 Hy Hh Hs0) as [Hf|Hf]; [|right; by eapply oc_holds].
        destruct (Hq _ Hf) as [Hf'|[Hf' _]]; [left; apply elem_of_app; by left|right]. by apply (Hf' u h).
      - destruct (D4 v w z0 x h Hne Hz0 Hx' Hh Hs0) as [Hf|Hf]; [|by right].
        destruct (Hq _ Hf) as [Hf'|[Hf' _]]; [left; apply elem_of_app; by left|]. exfalso. by destruct (Hf' w h Hh eq_refl). }
    destruct (Hl v z Hz) as [[-> ->]|[_ Hz']]; [|by eapply Hold].
    destruct (oc_new_holds c y y' _ base h Ho Hh Hs) as [Hs'|[Hs' _]]; [by eapply Hold|].
    left. apply elem_of_app. right. apply Hs'. apply (hn_connected _ _ HN u c Hu). split; [done|]. apply D1.
    destruct (Hl w x Hx) as [[-> _]|[_ ?]]; [done|by eexists].
  - intros v w z x h o Hne Hz Hx Hh Hs.
    assert (get_id o = frag_id p h) as Hid.
    { destruct (cfgs !! v) as [d|] eqn:Hd.
      - assert (node_ok d z) as (Hst & _). { destruct (Hl v z Hz) as [[-> ->]|[_ Hz']]; [by simplify_eq|by eapply D2]. }
        destruct (so_frag _ _ _ _ _ _ Hst h o Hh Hs) as (a & b & _ & ->). by apply (frag_fields cfgs p Gs HG).
      - destruct (Hl v z Hz) as [[-> ->]|[_ Hz']]; [by simplify_eq|]. assert (is_Some (cfgs !! v)) as [? ?] by (apply D1; by eexists). by simplify_eq. }
    assert (forall z0, nt_nodes N !! v = Some z0 -> o ∈ bucket (s_st z0) h -> frag_post w h o ∈ (F ++ out_of y y')%list \/ settled x h o) as Hold.
    { intros z0 Hz0 Hs0. destruct (Hl w x Hx) as [[-> ->]|[Hw Hx']].
      - destruct (D5 v u z0 y h o Hne Hz0 Hy Hh Hs0) as [Hf|Hf]; [|right; by eapply oc_settled].
        destruct (Hq _ Hf) as [Hf'|[_ Hf']]; [left; apply elem_of_app; by left|right]. by apply (Hf' u h).
      - destruct (D5 v w z0 x h o Hne Hz0 Hx' Hh Hs0) as [Hf|Hf]; [|by right].
        destruct (Hq _ Hf) as [Hf'|[_ Hf']]; [left; apply elem_of_app; by left|]. exfalso. by destruct (Hf' w h o Hh eq_refl Hid). }
    destruct (Hl v z Hz) as [[-> ->]|[_ Hz']]; [|by eapply Hold].
    destruct (oc_new_frag c y y' _ base h o Ho Hh Hs) as [Hs'|Hs']; [by eapply Hold|].
    left. apply elem_of_app. right. apply Hs'. apply (hn_connected _ _ HN u c Hu). split; [done|]. apply D1.
    destruct (Hl w x Hx) as [[-> _]|[_ ?]]; [done|by eexists].
  - intros v d z h Hd Hz Hh Hs. destruct (Hl v z Hz) as [[-> ->]|[_ Hz']]; [|by eapply D6]. simplify_eq.
    destruct (oc_new_holds c y y' _ base h Ho Hh Hs) as [Hs'|[_ Hs']]; [|by left].
    destruct (D6 u c y h Hu Hy Hh Hs') as [Hk|Hk]; [|right; by eapply oc_settled].
    destruct (Ht _ Hk) as [Hk'|Hk']; [left; by eapply oc_tasks|right; by apply Hk'].
Qed.

Lemma NI_init sec st : NI (net_init cfgs p sec st).
Proof using All.
  split; cbn [net_init nt_nodes nt_flight].
  - intros u. rewrite lookup_fmap. destruct (cfgs !! u); cbn; split; intros [? ?]; try done; by eexists.
  - intros u c y Hu. rewrite lookup_fmap, Hu. intros [= <-].
    assert (forall h, bucket (init_gst p sec st) h = []) as Hb.
    { intros h. unfold NetworkNode.bucket, get_object_list, frags_at. destruct (fm h); cbn; by rewrite lookup_empty. }
    split; [|split; [done|intros t Ht; cbn in Ht; by apply elem_of_nil in Ht]]. split.
    + apply GI_init.
    + done.
    + done.
    + intros f i o _. destruct f; cbn; by rewrite lookup_empty.
    + intros g o _. cbn [s_st init_gsys]. rewrite Hb. intros Ho. by apply elem_of_nil in Ho.
    + intros g _. cbn [s_st init_gsys]. rewrite Hb. constructor.
    + intros g _. cbn [s_st init_gsys]. rewrite Hb. cbn. pose proof (hn_enough _ _ HN). lia.
    + intros g _ _. unfold fulls. destruct (fm g); cbn; by rewrite lookup_empty.
  - intros q Hq. by apply elem_of_nil in Hq.
  - intros u v y z g _ Hy _ _. rewrite lookup_fmap in Hy. destruct (cfgs !! u); [|done]. injection Hy as <-. unfold holds. destruct (fm g); cbn; by rewrite lookup_empty.
  - intros u v y z g o _ Hy _ _. rewrite lookup_fmap in Hy. destruct (cfgs !! u); [|done]. injection Hy as <-.
    unfold NetworkNode.bucket, get_object_list, frags_at. intros Ho. destruct (fm g); cbn in Ho; rewrite lookup_empty in Ho; by apply elem_of_nil in Ho.
  - intros u c y g _ Hy _. rewrite lookup_fmap in Hy. destruct (cfgs !! u); [|done]. injection Hy as <-. unfold holds. destruct (fm g); cbn; by rewrite lookup_empty.
Qed.

(** ** Weights *)
Definition Hs : list gobj := remove_dups Gs.
Definition nb (c : gconf P) : nat := length (gc_neighbours c).
Definition head_weight (c : gconf P) (s : gst) (g : gobj) : nat :=
  (if decide (get_tbl s (OInit (fm g)) !! get_id g = Some g) then 0 else S (nb c)) + (T - length (bucket s g)) * nb c.
Definition weight (c : gconf P) (y : gsys) : nat := length (s_tasks y) + sumf (head_weight c (s_st y)) Hs.
Definition node_weight (N : net) (u : string) : nat :=
  match cfgs !! u, nt_nodes N !! u with Some c, Some y => weight c y | _, _ => 0 end.
Definition urls : list string := (map_to_list cfgs).*1.
Definition W (N : net) : nat := length (nt_flight N) + sumf (node_weight N) urls.

Lemma Hs_in g : g ∈ Hs <-> g ∈ Gs.
Proof using. apply elem_of_remove_dups. Qed.
Lemma urls_in u : u ∈ urls <-> is_Some (cfgs !! u).
Proof using.
  unfold urls. rewrite elem_of_list_fmap. split.
  - intros ([v c] & -> & H). apply elem_of_map_to_list in H. by eexists.
  - intros [c Hc]. exists (u, c). split; [done|]. by apply elem_of_map_to_list.
Qed.

Lemma oc_weight c y y' out base : outcome c y y' out base -> length out + weight c y' + length (s_tasks y) = weight c y + length base.
Proof using.
  intros [E1 E2 E3 ->|g Hg Hn Hh Hb Ht ->|g v d Hg Hv E1 Hnin Hl Hb Hb' Ht ->]; unfold weight; rewrite ?map_length.
  - rewrite E3. cbn. rewrite (sumf_ext (head_weight c (s_st y')) (head_weight c (s_st y))); [lia|].
    intros h Hh. apply Hs_in in Hh. unfold head_weight. by rewrite E1, E2.
  - rewrite Ht, app_length. cbn [length]. fold (nb c).
    assert (sumf (head_weight c (s_st y')) Hs + head_weight c (s_st y) g = sumf (head_weight c (s_st y)) Hs + head_weight c (s_st y') g) as Hsum.
    { apply sumf_update; [apply NoDup_remove_dups|by apply Hs_in|]. intros h Hin Hne. apply Hs_in in Hin. unfold head_weight. rewrite Hb by done.
      destruct (Hh h Hin) as [A B]. unfold holds in *.
      destruct (decide (get_tbl (s_st y') (OInit (fm h)) !! get_id h = Some h)) as [D|D], (decide (get_tbl (s_st y) (OInit (fm h)) !! get_id h = Some h)) as [D'|D']; auto.
      - destruct (A D) as [?| ->]; done.
      - exfalso. apply D, B. by left. }
    unfold head_weight in Hsum at 2 4. rewrite Hb in Hsum by done.
    rewrite decide_False in Hsum by exact Hn. rewrite decide_True in Hsum by (apply Hh; auto). lia.
  - rewrite Ht. fold (nb c).
    assert (sumf (head_weight c (s_st y')) Hs + head_weight c (s_st y) g = sumf (head_weight c (s_st y)) Hs + head_weight c (s_st y') g) as Hsum.
    { apply sumf_update; [apply NoDup_remove_dups|by apply Hs_in|]. intros h Hin Hne. apply Hs_in in Hin. unfold head_weight. by rewrite E1, Hb'. }
    unfold head_weight in Hsum at 2 4. rewrite E1, Hb, app_length in Hsum. cbn [length] in Hsum.
    replace (T - length (bucket (s_st y) g)) with (S (T - (length (bucket (s_st y) g) + 1))) in Hsum by lia. cbn [Nat.mul] in Hsum. lia.
Qed.

Lemma W_update N u c y y' F base : NI N -> cfgs !! u = Some c -> nt_nodes N !! u = Some y ->
  outcome c y y' (out_of y y') base ->
  W (mknet (<[u := y']> (nt_nodes N)) (F ++ out_of y y')) + length (nt_flight N) + length (s_tasks y) = W N + length F + length base.
Proof using.
  intros HI Hu Hy Ho. apply oc_weight in Ho. unfold W. cbn [nt_flight]. rewrite app_length.
  set (N' := mknet _ _).
  assert (sumf (node_weight N') urls + node_weight N u = sumf (node_weight N) urls + node_weight N' u) as Hsum.
  { apply sumf_update; [apply NoDup_fst_map_to_list|apply urls_in; by eexists|]. intros v _ Hv. unfold node_weight, N'. cbn [nt_nodes]. by rewrite lookup_insert_ne. }
  unfold node_weight in Hsum at 2 4. unfold N' in Hsum at 2. cbn [nt_nodes] in Hsum. rewrite Hu, Hy, lookup_insert in Hsum. lia.
Qed.

(** ** Every allowed event *)
Definition gain (N : net) (e : nevent) : nat := if decide (effective N e) then 1 else 0.

Lemma arrival_object v ep g : ep ∈ object_paths -> arrival (mkpost v ep (MObj g)) = Some (Recv (Z.of_nat (len (gobj_marshal g))) g).
Proof using. intros H. unfold arrival. cbn [po_path po_msg]. rewrite bool_decide_eq_true_2 by done. by rewrite gobj_roundtrip. Qed.

Lemma act_eq N u c y e : cfgs !! u = Some c -> nt_nodes N !! u = Some y ->
  act cfgs N u e = mknet (<[u := step c y e]> (nt_nodes N)) (nt_flight N ++ out_of y (step c y e)).
Proof using. intros Hu Hy. unfold act. by rewrite Hu, Hy. Qed.

Definition keeps_heads (N N' : net) : Prop := forall u y g, nt_nodes N !! u = Some y -> g ∈ Gs -> holds (s_st y) g ->
  exists y', nt_nodes N' !! u = Some y' /\ holds (s_st y') g.

Lemma keeps_insert N u c y y' F base : nt_nodes N !! u = Some y -> outcome c y y' (out_of y y') base ->
  keeps_heads N (mknet (<[u := y']> (nt_nodes N)) F).
Proof using.
  intros Hy Ho v z g Hz Hg Hh. cbn. destruct (decide (v = u)) as [->|Hn].
  - rewrite lookup_insert. eexists. split; [done|]. simplify_eq. by eapply oc_holds.
  - rewrite lookup_insert_ne by done. eauto.
Qed.

Lemma same_clock (c : gconf P) y sec st : node_ok c y ->
  let y' := step c y (Tick p sec st) in node_ok c y' /\ outcome c y y' (out_of y y') (s_tasks y).
Proof using.
  intros (Hst & Hcr & Htk). cbn [step]. cbn zeta.
  set (s' := set_clock (s_st y) p sec st).
  assert (t_trace s' = t_trace (s_st y)) as Et by (unfold s'; by autorewrite with gst).
  assert (forall h, bucket s' h = bucket (s_st y) h) as Eb by (intros h; unfold NetworkNode.bucket, get_object_list, s'; by autorewrite with gst).
  assert (forall k, get_tbl s' k = get_tbl (s_st y) k) as Etb by (intros k; unfold s'; by autorewrite with gst).
  assert (forall h, fulls s' h = fulls (s_st y) h) as Ef by (intros h; apply Etb).
  split.
  - split; [|split; [done|]]; cbn [s_st s_tasks].
    + destruct Hst as [HI Hb Hp Hini Hfr Hnd Hfu Hno]. split.
      * eapply GI_frame; [..|exact HI]; auto; intros; unfold s'; by autorewrite with gst.
      * unfold s'. by autorewrite with gst.
      * unfold s'. by autorewrite with gst.
      * intros f i o. rewrite Etb, Et. apply Hini.
      * intros h o. rewrite Eb. apply Hfr.
      * intros h. rewrite Eb. apply Hnd.
      * intros h. rewrite Eb, Ef, Et. apply Hfu.
      * intros h. rewrite Eb, Ef. apply Hno.
    + intros t Ht. rewrite Et. by apply Htk.
  - constructor 1; auto; cbn [s_st]. erewrite (out_suffix _ _ []); [done|]. cbn [s_st]. by rewrite Et, app_nil_r.
Qed.

Lemma one_step N e : NI N -> allowed p Gs e ->
  let N' := net_step cfgs N e in NI N' /\ W N' + gain N e = W N /\ keeps_heads N N' /\
  match e with NHand u g => is_Some (cfgs !! u) -> exists y', nt_nodes N' !! u = Some y' /\ holds (s_st y') g | _ => True end.
Proof using All.
  intros HI He. pose proof HI as [D1 D2 D3 _ _ _].
  assert (keeps_heads N N) as Hkeep by (intros u y g; eauto).
  destruct e as [u g|i|u i|u q sec st]; cbn [net_step allowed] in *; unfold gain.
  - rewrite decide_False by (by intros []). destruct (cfgs !! u) as [c|] eqn:Hu.
    2: { unfold act. rewrite Hu. cbn zeta. split_and!; auto. by intros []. }
    destruct (proj2 (D1 u)) as [y Hy]; [by eexists|]. rewrite (act_eq N u c y) by done.
    destruct (recv_head u c y g Hu (D2 u c y Hu Hy) He) as (A1 & A2 & A3). cbn zeta. split_and!.
    + eapply preserve; eauto.
    + pose proof (W_update N u c y _ (nt_flight N) (s_tasks y) HI Hu Hy A2). lia.
    + by eapply keeps_insert.
    + intros _. cbn. rewrite lookup_insert. eauto.
  - destruct (nt_flight N !! i) as [q|] eqn:Eq.
    2: { rewrite decide_False by (cbn; apply lookup_ge_None in Eq; lia). cbn zeta. split_and!; auto. }
    rewrite decide_True by (cbn; by eapply lookup_lt_Some).
    assert (q ∈ nt_flight N) as Hq by (by eapply elem_of_list_lookup_2).
    assert (length (delete i (nt_flight N)) + 1 = length (nt_flight N)) as Elen.
    { rewrite length_delete by (by eexists). apply lookup_lt_Some in Eq. lia. }
    destruct (D3 q Hq) as ([c Hu] & g & Hg & Hcase). set (u := po_to q) in *.
    destruct (proj2 (D1 u)) as [y Hy]; [by eexists|].
    assert (forall o, (forall y', y' = step c y (Recv (Z.of_nat (len (gobj_marshal o))) o) ->
        node_ok c y' /\ outcome c y y' (out_of y y') (s_tasks y) /\
        (forall v h, h ∈ Gs -> q = init_post v h -> v = u /\ holds (s_st y') h) /\
        (forall v h x, h ∈ Gs -> q = frag_post v h x -> get_id x = frag_id p h -> v = u /\ settled y' h x)) ->
       arrival q = Some (Recv (Z.of_nat (len (gobj_marshal o))) o) ->
       let N' := match arrival q with Some e => act cfgs (mknet (nt_nodes N) (delete i (nt_flight N))) u e | None => mknet (nt_nodes N) (delete i (nt_flight N)) end in
       NI N' /\ W N' + 1 = W N /\ keeps_heads N N' /\ True) as Hgo.
    { intros o Ho ->. rewrite (act_eq _ u c y) by done. cbn [nt_nodes nt_flight]. destruct (Ho _ eq_refl) as (A1 & A2 & A3 & A4). cbn zeta. split_and!; auto.
      - eapply preserve; eauto.
        + intros x. apply elem_of_delete.
        + intros x Hx. destruct (elem_of_delete_or _ i q x Eq Hx) as [?| ->]; auto.
      - pose proof (W_update N u c y _ (delete i (nt_flight N)) (s_tasks y) HI Hu Hy A2). lia.
      - by eapply keeps_insert. }
    destruct Hcase as [Hc|(v & d & Hv & Hc)].
    + apply (Hgo g); [|rewrite Hc; apply arrival_object, paths_known].
      intros y' ->. destruct (recv_head u c y g Hu (D2 u c y Hu Hy) Hg) as (A1 & A2 & A3). split_and!; auto.
      * intros v h _ E. rewrite Hc in E. unfold init_post in E. by simplify_eq.
      * intros v h x _ E. rewrite Hc in E. apply (f_equal po_path) in E. by apply paths_differ in E.
    + apply (Hgo (the_frag d g)); [|rewrite Hc; apply arrival_object, paths_known].
      intros y' ->. destruct (recv_frag u c y (Z.of_nat (len (gobj_marshal (the_frag d g)))) g v d Hu Hv (D2 u c y Hu Hy) Hg) as (A1 & A2 & A3). split_and!; auto.
      * intros w h _ E. rewrite Hc in E. apply (f_equal po_path) in E. by apply eq_sym, paths_differ in E.
      * intros w h x Hh E Ex. rewrite Hc in E. assert (w = u /\ x = the_frag d g) as [-> ->] by (unfold frag_post in E; by simplify_eq).
        split; [done|]. assert (h = g) as ->; [|done]. destruct (frag_fields cfgs p Gs HG d g Hg) as (_ & Fi & _).
        rewrite Fi in Ex. unfold frag_id in Ex. injection Ex as Ef E0. apply (same_id cfgs p Gs HG); auto. by destruct (fm h), (fm g).
  - destruct (cfgs !! u) as [c|] eqn:Hu.
    2: { assert (nt_nodes N !! u = None) as Hn. { apply eq_None_not_Some. intros Hx. apply D1 in Hx as [? ?]. by simplify_eq. }
         rewrite decide_False by (intros (y & Hy & _); by simplify_eq). unfold act. rewrite Hu. cbn zeta. split_and!; auto. }
    destruct (proj2 (D1 u)) as [y Hy]; [by eexists|]. destruct (D2 u c y Hu Hy) as (Hst & Hcr & Htk).
    destruct (nth_error (s_tasks y) i) as [[g]|] eqn:Ei.
    2: { rewrite decide_False. 2: { intros (y0 & Hy0 & Hlt). simplify_eq. apply nth_error_None in Ei. lia. }
         rewrite (act_eq N u c y) by done. cbn [step]. rewrite Ei. assert (mknet (<[u := y]> (nt_nodes N)) (nt_flight N ++ out_of y y) = N) as ->.
         { unfold out_of. rewrite drop_all. cbn [posts omap list_omap]. change (posts []) with (@nil post). rewrite (app_nil_r (nt_flight N)).
           rewrite (fin_maps.insert_id _ _ _ Hy). by destruct N. }
         cbn zeta. split_and!; auto. }
    assert (SignLater g ∈ s_tasks y) as Hin by (apply elem_of_list_In; by eapply nth_error_In).
    destruct (Htk _ Hin) as (g' & Hg & [= <-] & _).
    rewrite decide_True. 2: { exists y. split; [done|]. apply nth_error_Some. congruence. }
    rewrite (act_eq N u c y) by done.
    destruct (fire_one u c y i g Hu (D2 u c y Hu Hy) Ei Hg) as (A1 & A2 & A3). cbn zeta. split_and!; auto.
    + eapply preserve; eauto. intros t Ht. apply nth_error_split in Ei as (l1 & l2 & E & El). rewrite E in Ht |- *.
      rewrite <- El. rewrite take_app. rewrite (cons_middle _ l1 l2), app_assoc. 
      replace (S (length l1)) with (length (l1 ++ [SignLater g])) by (rewrite app_length; cbn; lia). rewrite drop_app.
      apply elem_of_app in Ht as [Ht|Ht]; [left; apply elem_of_app; by left|]. apply elem_of_cons in Ht as [->|Ht]; [right; intros h _ [= <-]; rewrite El; exact A3|].
      left. apply elem_of_app. by right.
    + pose proof (W_update N u c y _ (nt_flight N) _ HI Hu Hy A2) as Hw. rewrite app_length, take_length, drop_length in Hw.
      assert (i < length (s_tasks y)) by (apply nth_error_Some; congruence). lia.
    + by eapply keeps_insert.
  - subst q. rewrite decide_False by (by intros []). destruct (cfgs !! u) as [c|] eqn:Hu.
    2: { unfold act. rewrite Hu. cbn zeta. split_and!; auto. }
    destruct (proj2 (D1 u)) as [y Hy]; [by eexists|]. rewrite (act_eq N u c y) by done.
    destruct (same_clock c y sec st (D2 u c y Hu Hy)) as (A1 & A2). cbn zeta. split_and!; auto.
    + eapply preserve; eauto.
    + pose proof (W_update N u c y _ (nt_flight N) _ HI Hu Hy A2). lia.
    + by eapply keeps_insert.
Qed.

Lemma run_NI N l : NI N -> Forall (allowed p Gs) l -> NI (net_run cfgs N l).
Proof using All.
  revert N. induction l as [|e l IH]; intros N HI Hl; [done|]. apply Forall_cons in Hl as [He Hl]. cbn.
  apply IH; auto. by apply one_step.
Qed.

Lemma run_W N l : NI N -> Forall (allowed p Gs) l -> W (net_run cfgs N l) + effective_steps cfgs N l = W N.
Proof using All.
  revert N. induction l as [|e l IH]; intros N HI Hl; [cbn; lia|]. apply Forall_cons in Hl as [He Hl].
  destruct (one_step N e HI He) as (HI' & HW & _). specialize (IH _ HI' Hl). cbn [net_run fold_left effective_steps].
  unfold net_run in IH. unfold gain in HW. lia.
Qed.

Lemma keeps_trans N1 N2 N3 : keeps_heads N1 N2 -> keeps_heads N2 N3 -> keeps_heads N1 N3.
Proof using. intros H1 H2 u y g Hy Hg Hh. destruct (H1 u y g Hy Hg Hh) as (y2 & Hy2 & Hh2). by eapply H2. Qed.

Lemma run_keeps N l : NI N -> Forall (allowed p Gs) l -> keeps_heads N (net_run cfgs N l).
Proof using All.
  revert N. induction l as [|e l IH]; intros N HI Hl; [by intros u y g; eauto|]. apply Forall_cons in Hl as [He Hl].
  destruct (one_step N e HI He) as (HI' & _ & Hk & _). eapply keeps_trans; [exact Hk|]. by apply IH.
Qed.

Lemma run_handed N l u g : NI N -> Forall (allowed p Gs) l -> NHand u g ∈ l -> is_Some (cfgs !! u) ->
  exists y, nt_nodes (net_run cfgs N l) !! u = Some y /\ holds (s_st y) g.
Proof using All.
  revert N. induction l as [|e l IH]; intros N HI Hl Hin Hu; [by apply elem_of_nil in Hin|]. apply Forall_cons in Hl as [He Hl].
  destruct (one_step N e HI He) as (HI' & _ & Hk & Hh). apply elem_of_cons in Hin as [<-|Hin]; [|by apply IH].
  destruct (Hh Hu) as (y & Hy & Hy'). cbn in He. by eapply (run_keeps _ l HI' Hl).
Qed.

(** ** When nothing is on its way *)
Lemma quiet_heads N u y g v z : NI N -> quiescent N -> nt_nodes N !! u = Some y -> g ∈ Gs -> holds (s_st y) g ->
  nt_nodes N !! v = Some z -> holds (s_st z) g.
Proof using.
  intros HI [Hf _] Hy Hg Hh Hz. destruct (decide (u = v)) as [->|Hn]; [by simplify_eq|].
  destruct (ni_heads _ HI u v y z g Hn Hy Hz Hg Hh) as [Hin|?]; [|done]. rewrite Hf in Hin. by apply elem_of_nil in Hin.
Qed.

Lemma all_frags g : g ∈ Gs -> NoDup (map (λ uc : string * gconf P, the_frag uc.2 g) (map_to_list cfgs)).
Proof using HN HG Hdeser.
  intros Hg. assert (forall l : list (string * gconf P), NoDup l.*1 -> (forall u c, (u, c) ∈ l -> cfgs !! u = Some c) ->
    NoDup (map (λ uc : string * gconf P, the_frag uc.2 g) l)) as H.
  { induction l as [|[u c] l IH]; intros Hn Hl; [constructor|]. cbn in Hn. apply NoDup_cons in Hn as [Hni Hn]. cbn. constructor.
    - intros Hin. apply elem_of_list_fmap in Hin as ([v d] & E & Hin). apply (f_equal g_s0) in E. cbn [snd] in E.
      destruct (frag_fields cfgs p Gs HG c g Hg) as (_ & _ & _ & _ & _ & E1 & _). destruct (frag_fields cfgs p Gs HG d g Hg) as (_ & _ & _ & _ & _ & E2 & _).
      rewrite E1, E2 in E. apply (sig_inj cfgs T HN Hdeser u c v d g g) in E; [|apply Hl; by left|apply Hl; by right].
      subst v. apply Hni. apply elem_of_list_fmap. by exists (u, d).
    - apply IH; [done|]. intros v d Hin. apply Hl. by right. }
  apply H; [apply NoDup_fst_map_to_list|]. intros u c. apply elem_of_map_to_list.
Qed.

Lemma bucket_le N v z c g : NI N -> cfgs !! v = Some c -> nt_nodes N !! v = Some z -> length (bucket (s_st z) g) <= T.
Proof using HN.
  intros HI Hc Hz. destruct (ni_node _ HI v c z Hc Hz) as (Hst & _). destruct (so_GI _ _ _ _ _ _ Hst) as (_ & _ & H3 & _).
  unfold NetworkNode.bucket, get_object_list, frags_at. destruct (get_frags (s_st z) (fm g) !! frag_id p g) as [l|] eqn:E; [|cbn; lia].
  rewrite <- (hn_threshold _ _ HN v c Hc). by apply H3 in E as [? _].
Qed.

Lemma quiet_full N u y g v z : NI N -> quiescent N -> nt_nodes N !! u = Some y -> g ∈ Gs -> holds (s_st y) g ->
  nt_nodes N !! v = Some z -> length (bucket (s_st z) g) = T.
Proof using All.
  intros HI HQ Hy Hg Hh Hz. pose proof HQ as [Hf Htk].
  destruct (proj1 (ni_dom _ HI v)) as [d Hd]; [by eexists|].
  pose proof (bucket_le N v z d g HI Hd Hz) as Hle. destruct (decide (length (bucket (s_st z) g) = T)) as [|Hne]; [done|exfalso].
  assert (forall w x o, nt_nodes N !! w = Some x -> o ∈ bucket (s_st x) g -> o ∈ bucket (s_st z) g) as Hcome.
  { intros w x o Hx Ho. destruct (decide (w = v)) as [->|Hn]; [by simplify_eq|].
    destruct (ni_frags _ HI w v x z g o Hn Hx Hz Hg Ho) as [Hin|[?|?]]; [|done|done]. rewrite Hf in Hin. by apply elem_of_nil in Hin. }
  assert (forall w c, cfgs !! w = Some c -> the_frag c g ∈ bucket (s_st z) g) as Hall.
  { intros w c Hw. destruct (proj2 (ni_dom _ HI w)) as [x Hx]; [by eexists|].
    pose proof (quiet_heads N u y g w x HI HQ Hy Hg Hh Hx) as Hhx.
    destruct (ni_sign _ HI w c x g Hw Hx Hg Hhx) as [Hin|[Hin|Hlen]].
    - rewrite (Htk w x Hx) in Hin. by apply elem_of_nil in Hin.
    - by eapply Hcome.
    - exfalso. destruct (ni_node _ HI w c x Hw Hx) as (Hst & _).
      assert (length (bucket (s_st x) g) <= length (bucket (s_st z) g)); [|lia].
      apply nodup_subset_length; [by apply (so_nodup _ _ _ _ _ _ Hst)|]. intros o Ho. by apply (Hcome w x). }
  assert (size cfgs <= length (bucket (s_st z) g)) as Hsz.
  { rewrite <- (map_length (λ uc : string * gconf P, the_frag uc.2 g) (map_to_list cfgs)) || idtac.
    transitivity (length (map (λ uc : string * gconf P, the_frag uc.2 g) (map_to_list cfgs))); [by rewrite map_length|].
    apply nodup_subset_length; [by apply all_frags|]. intros o Ho. apply elem_of_list_fmap in Ho as ([w c] & -> & Hin).
    apply elem_of_map_to_list in Hin. by apply (Hall w c). }
  pose proof (hn_enough _ _ HN). lia.
Qed.

(** ** The theorems *)
Theorem network_converges sec st l : Forall (allowed p Gs) l -> quiescent (net_run cfgs (net_init cfgs p sec st) l) ->
  forall u g, NHand u g ∈ l -> is_Some (cfgs !! u) ->
  forall v c, cfgs !! v = Some c -> exists y full, nt_nodes (net_run cfgs (net_init cfgs p sec st) l) !! v = Some y /\
    statement_table (s_st y) g !! get_id g = Some g /\ ToMonitor (gc_owner c) g ∈ t_trace (s_st y) /\
    full_table (s_st y) g !! mkgid p (full_name g) (g_p0 g) = Some full /\ verify (gc_crypto c) full = Accept /\
    g_p1 full = g_p1 g /\ g_p2 full = g_p2 g /\ ToMonitor (gc_owner c) full ∈ t_trace (s_st y) /\
    length (g_signers full) = T /\ NoDup (g_signers full) /\ (forall w, w ∈ g_signers full -> is_Some (cfgs !! w)) /\
    s_crashes y = [] /\ t_black (s_st y) = ∅.
Proof using All.
  intros Hl HQ u g Hin Hu v c Hv. pose proof (run_NI _ l (NI_init sec st) Hl) as HI.
  destruct (run_handed _ l u g (NI_init sec st) Hl Hin Hu) as (y & Hy & Hh).
  assert (g ∈ Gs) as Hg by (rewrite Forall_forall in Hl; exact (Hl _ Hin)).
  set (N := net_run _ _ _) in *. destruct (proj2 (ni_dom _ HI v)) as [z Hz]; [by eexists|].
  destruct (ni_node _ HI v c z Hv Hz) as (Hst & Hcr & _).
  pose proof (quiet_heads N u y g v z HI HQ Hy Hg Hh Hz) as Hhz.
  pose proof (quiet_full N u y g v z HI HQ Hy Hg Hh Hz) as Hlen.
  destruct (so_full _ _ _ _ _ _ Hst g Hg Hlen) as (full & H1 & H2 & H3 & H4 & H5 & H6 & H7 & H8).
  exists z, full. split_and!; auto.
  - unfold holds, fm in Hhz. unfold statement_table. by destruct (decide _).
  - by apply (so_init _ _ _ _ _ _ Hst _ _ _ (fm_acc g) Hhz).
  - unfold fulls, full_id, fm in H1. unfold full_table, full_name. by destruct (decide _).
  - apply (so_black _ _ _ _ _ _ Hst).
Qed.

Lemma W_init sec st : W (net_init cfgs p sec st) =
  length Hs * sumf (λ uc : string * gconf P, 1 + (1 + T) * length (gc_neighbours uc.2)) (map_to_list cfgs).
Proof using.
  unfold W. cbn [net_init nt_flight length]. unfold urls.
  assert (forall l : list (string * gconf P), (forall u c, (u, c) ∈ l -> cfgs !! u = Some c) ->
    sumf (node_weight (net_init cfgs p sec st)) l.*1 = length Hs * sumf (λ uc : string * gconf P, 1 + (1 + T) * length (gc_neighbours uc.2)) l) as H.
  { induction l as [|[u c] l IH]; intros Hl; [cbn; lia|]. cbn [fmap list_fmap sumf fst snd].
    rewrite IH by (intros v d Hin; apply Hl; by right).
    unfold node_weight. cbn [net_init nt_nodes]. rewrite lookup_fmap, (Hl u c) by (by left). cbn [fmap option_fmap option_map].
    unfold weight. cbn [init_gsys s_tasks s_st length].
    rewrite (sumf_ext _ (λ _, 1 + (1 + T) * length (gc_neighbours c))); [rewrite sumf_const; lia|].
    intros g _. unfold head_weight. rewrite decide_False by (destruct (fm g); cbn; by rewrite lookup_empty).
    assert (bucket (init_gst p sec st) g = []) as ->; [|cbn [length]; unfold nb; lia].
    unfold NetworkNode.bucket, get_object_list, frags_at. destruct (fm g); cbn; by rewrite lookup_empty. }
  apply H. intros u c. apply elem_of_map_to_list.
Qed.

Lemma Hs_length : length Hs <= length Gs.
Proof using. apply nodup_subset_length; [apply NoDup_remove_dups|]. intros x. by rewrite Hs_in. Qed.

Theorem traffic_bounded sec st l : Forall (allowed p Gs) l ->
  effective_steps cfgs (net_init cfgs p sec st) l <=
  length Gs * sumf (λ uc : string * gconf P, 1 + (1 + T) * length (gc_neighbours uc.2)) (map_to_list cfgs).
Proof using All.
  intros Hl. pose proof (run_W _ l (NI_init sec st) Hl) as HW. rewrite W_init in HW. pose proof Hs_length.
  etransitivity; [|apply Nat.mul_le_mono_r; exact Hs_length]. lia.
Qed.

Lemma W_quiet N : NI N -> quiescent N -> (forall g, g ∈ Gs -> exists u y, nt_nodes N !! u = Some y /\ holds (s_st y) g) -> W N = 0.
Proof using All.
  intros HI HQ Hall. pose proof HQ as [Hf Htk]. unfold W. rewrite Hf. cbn [length]. apply sumf_zero. intros v _. unfold node_weight.
  destruct (cfgs !! v) as [c|] eqn:Hv; [|done]. destruct (nt_nodes N !! v) as [z|] eqn:Hz; [|done]. unfold weight. rewrite (Htk v z Hz). cbn [length].
  apply sumf_zero. intros g Hg. apply Hs_in in Hg. destruct (Hall g Hg) as (u & y & Hy & Hh). unfold head_weight.
  rewrite decide_True by exact (quiet_heads N u y g v z HI HQ Hy Hg Hh Hz). rewrite (quiet_full N u y g v z HI HQ Hy Hg Hh Hz). lia.
Qed.

Theorem traffic_exact sec st l : NoDup Gs -> Forall (allowed p Gs) l -> quiescent (net_run cfgs (net_init cfgs p sec st) l) ->
  (forall g, g ∈ Gs -> exists u, is_Some (cfgs !! u) /\ NHand u g ∈ l) ->
  effective_steps cfgs (net_init cfgs p sec st) l =
  length Gs * sumf (λ uc : string * gconf P, 1 + (1 + T) * length (gc_neighbours uc.2)) (map_to_list cfgs).
Proof using All.
  intros Hnd Hl HQ Hall. pose proof (run_W _ l (NI_init sec st) Hl) as HW. rewrite W_init in HW.
  rewrite W_quiet in HW; auto.
  - assert (length Hs = length Gs) as E; [|by rewrite <- E].
    apply Nat.le_antisymm; [apply Hs_length|]. apply nodup_subset_length; [done|]. intros x. by rewrite Hs_in.
  - by apply run_NI, Hl; apply NI_init.
  - intros g Hg. destruct (Hall g Hg) as (u & Hu & Hin). exists u. apply (run_handed _ l u g (NI_init sec st) Hl Hin Hu).
Qed.

(** ** Closed forms *)
Context (Hnb : forall u c, cfgs !! u = Some c -> NoDup (gc_neighbours c)).

Lemma nb_count u c : cfgs !! u = Some c -> length (gc_neighbours c) = size cfgs - 1.
Proof using HN Hnb.
  intros Hu. assert (length (u :: gc_neighbours c) = length urls) as E.
  { apply Nat.le_antisymm; apply nodup_subset_length.
    - constructor; [|by eapply Hnb]. intros Hin. apply (hn_connected _ _ HN u c Hu) in Hin as [? _]. done.
    - intros v Hv. apply urls_in. apply elem_of_cons in Hv as [->|Hv]; [by eexists|]. by apply (hn_connected _ _ HN u c Hu).
    - apply NoDup_fst_map_to_list.
    - intros v Hv. apply urls_in in Hv. destruct (decide (v = u)) as [->|Hn]; [by left|]. right. by apply (hn_connected _ _ HN u c Hu). }
  unfold urls in E. rewrite fmap_length in E. cbn [length] in E. unfold size, map_size. lia.
Qed.

Lemma total_count : sumf (λ uc : string * gconf P, 1 + (1 + T) * length (gc_neighbours uc.2)) (map_to_list cfgs) = statement_traffic (size cfgs) T.
Proof using HN Hnb.
  rewrite (sumf_ext _ (λ _, 1 + (1 + T) * (size cfgs - 1))); [by rewrite sumf_const|]. intros [u c] Hin. apply elem_of_map_to_list in Hin.
  cbn [snd]. by rewrite (nb_count u c).
Qed.

Theorem traffic_bound sec st l : Forall (allowed p Gs) l ->
  effective_steps cfgs (net_init cfgs p sec st) l <= length Gs * statement_traffic (size cfgs) T.
Proof using All. intros Hl. rewrite <- total_count. by apply traffic_bounded. Qed.

Theorem traffic_total sec st l : NoDup Gs -> Forall (allowed p Gs) l -> quiescent (net_run cfgs (net_init cfgs p sec st) l) ->
  (forall g, g ∈ Gs -> exists u, is_Some (cfgs !! u) /\ NHand u g ∈ l) ->
  effective_steps cfgs (net_init cfgs p sec st) l = length Gs * statement_traffic (size cfgs) T.
Proof using All. intros. rewrite <- total_count. by apply traffic_exact. Qed.
End net.

Section reach.
Context {P : prims} (cfgs : gmap string (gconf P)) (T : nat) (p : string) (Gs : list gobj).
Context (HN : honest_network cfgs T) (HG : valid_statements cfgs p Gs).
Context (Hagg : agg_correct P) (Hperm : fast_perm P) (Hdeser : forall sg : bls_sig P, bls_deser (bls_ser sg) = Some sg).
Notation NI := (NI cfgs T p Gs).
Notation W := (W cfgs T p Gs).

Lemma not_quiet N : NI N -> quiescent N \/ exists e, allowed p Gs e /\ effective N e.
Proof using.
  intros HI. destruct (nt_flight N) as [|q fl] eqn:Hf.
  2: { right. exists (NDeliver 0). split; [done|]. cbn. rewrite Hf. cbn. lia. }
  destruct (decide (map_Forall (λ _ y, s_tasks y = []) (nt_nodes N))) as [Hm|Hm].
  - left. split; [done|]. intros u y Hy. by apply (Hm u y).
  - right. apply map_not_Forall in Hm as (u & y & Hy & Ht); [|apply _]. exists (NFire u 0). split; [done|]. exists y. split; [done|].
    destruct (s_tasks y); [done|]. cbn. lia.
Qed.

Theorem quiescence_reached sec st l : Forall (allowed p Gs) l -> exists l', Forall (allowed p Gs) l' /\
  quiescent (net_run cfgs (net_init cfgs p sec st) (l ++ l')).
Proof using All.
  intros Hl. pose proof (run_NI cfgs T p Gs HN HG Hagg Hperm Hdeser _ l (NI_init cfgs T p Gs HN HG Hagg Hperm Hdeser sec st) Hl) as HI. unfold net_run in *. setoid_rewrite fold_left_app.
  set (N := fold_left _ l _) in *. clearbody N. remember (W N) as n eqn:En. revert N HI En.
  induction n as [n IH] using lt_wf_ind. intros N HI ->. destruct (not_quiet N HI) as [HQ|(e & He & Hef)].
  - exists []. split; [constructor|done].
  - destruct (one_step cfgs T p Gs HN HG Hagg Hperm Hdeser N e HI He) as (HI' & HW & _). unfold gain in HW. rewrite decide_True in HW by done.
    destruct (IH (W (net_step cfgs N e))) with (N := net_step cfgs N e) as (l' & Hl' & HQ); auto; [lia|].
    exists (e :: l'). split; [by constructor|done].
Qed.
End reach.

Lemma distinct_signers {P : prims} (cfgs : gmap string (gconf P)) T p (Gs : list gobj) :
  honest_network cfgs T -> valid_statements cfgs p Gs ->
  agg_correct P -> fast_perm P -> (forall sg : bls_sig P, bls_deser (bls_ser sg) = Some sg) ->
  forall sec st l, Forall (allowed p Gs) l ->
  forall v y g full, nt_nodes (net_run cfgs (net_init cfgs p sec st) l) !! v = Some y -> g ∈ Gs ->
    full_table (s_st y) g !! mkgid p (full_name g) (g_p0 g) = Some full ->
    length (g_signers full) = T /\ NoDup (g_signers full) /\ (forall w, w ∈ g_signers full -> is_Some (cfgs !! w)) /\
    g_p1 full = g_p1 g /\ g_p2 full = g_p2 g.
Proof.
  intros HN HG Hagg Hperm Hdeser sec st l Hl v y g full Hy Hg Hf.
  pose proof (run_NI cfgs T p Gs HN HG Hagg Hperm Hdeser _ l (NI_init cfgs T p Gs HN HG Hagg Hperm Hdeser sec st) Hl) as HI.
  destruct (proj1 (ni_dom _ _ _ _ _ HI v)) as [c Hc]; [by eexists|].
  pose proof (ni_node _ _ _ _ _ HI v c y Hc Hy) as (Hst & _).
  pose proof (bucket_le cfgs T p Gs HN _ v y c g HI Hc Hy) as Hle.
  assert (fulls (s_st y) g !! full_id p g = Some full) as Hf'.
  { unfold fulls, full_id, fm. unfold full_table, full_name in Hf. by destruct (decide _). }
  destruct (decide (length (bucket p (s_st y) g) = T)) as [HT|HT].
  - destruct (so_full _ _ _ _ _ _ Hst g Hg HT) as (full' & H1 & _ & H3 & H4 & _ & H6 & H7 & H8). rewrite Hf' in H1. injection H1 as <-. auto.
  - rewrite (so_none _ _ _ _ _ _ Hst g Hg) in Hf'; [done|lia].
Qed.

Lemma revocations_converge {P : prims} (cfgs : gmap string (gconf P)) T p g :
  honest_network cfgs T ->
  agg_correct P -> fast_perm P -> (forall sg : bls_sig P, bls_deser (bls_ser sg) = Some sg) ->
  g_type g = REV_INIT -> g_period g = p -> g_signer g <> "" ->
  (forall u c, cfgs !! u = Some c -> verify (gc_crypto c) g = Accept /\ gc_opt_mode c = false /\
     (Z.of_nat (len (gobj_marshal g)) <= gc_opt_threshold c)%Z /\
     forall v d, cfgs !! v = Some d -> (Z.of_nat (len (gobj_marshal (fragment_by d g))) <= gc_opt_threshold c)%Z) ->
  forall sec st l, Forall (allowed p [g]) l -> quiescent (net_run cfgs (net_init cfgs p sec st) l) ->
  (exists u, is_Some (cfgs !! u) /\ NHand u g ∈ l) ->
  forall v c, cfgs !! v = Some c -> exists y full, nt_nodes (net_run cfgs (net_init cfgs p sec st) l) !! v = Some y /\
    t_rev_init (s_st y) !! get_id g = Some g /\ t_rev_full (s_st y) !! mkgid p REV_FULL (g_p0 g) = Some full /\
    verify (gc_crypto c) full = Accept /\ g_p1 full = g_p1 g /\ g_p2 full = g_p2 g.
Proof.
  intros HN Hagg Hperm Hdeser Ht Hp Hsg Hall sec st l Hl HQ (u & Hu & Hin) v c Hv.
  assert (valid_statements cfgs p [g]) as HG.
  { split.
    - intros x Hx. apply elem_of_list_singleton in Hx as ->. split_and!; auto. by right.
    - intros x w d Hx Hw. apply elem_of_list_singleton in Hx as ->. by apply (Hall w).
    - intros x y Hx Hy. apply elem_of_list_singleton in Hx as ->. by apply elem_of_list_singleton in Hy as ->.
    - intros x w d w' d' Hx _ Hw Hw'. apply elem_of_list_singleton in Hx as ->. destruct (Hall w d Hw) as (_ & ? & ? & ?). split_and!; eauto. }
  destruct (network_converges cfgs T p [g] HN HG Hagg Hperm Hdeser sec st l Hl HQ u g Hin Hu v c Hv) as (y & full & H1 & H2 & _ & H4 & H5 & H6 & H7 & _).
  exists y, full. unfold statement_table, full_table, full_name in *. rewrite Ht in *. rewrite decide_False in H2, H4 by done. rewrite decide_False in H4 by done. auto 10.
Qed.
