(** One gossiper of an honest network: what it does with statements and
    fragments of them. *)
From Verif Require Import Bytes Hex Json Types Crypto Verify Prog Gossiper Network SpecCodec SpecVerify SpecGossiper SpecNetwork ProgFacts GstFacts CodecFacts CryptoFacts VerifyFacts GWalk GossiperInv GossiperSeq GossiperEvidence GossiperStep GossiperFrag GossiperMore.
From Coq Require Import Lia.
Open Scope string_scope.

Lemma posts_app a b : posts (a ++ b) = (posts a ++ posts b)%list.
Proof. apply omap_app. Qed.

Lemma posts_sends {P : prims} (c : gconf P) g ep m : outgoing c g = (ep, m) ->
  posts (sends c g) = map (λ v, mkpost v ep m) (gc_neighbours c).
Proof. intros E. unfold sends. rewrite E. cbn. induction (gc_neighbours c); cbn; [done|]. by f_equal. Qed.

Section node.
Context {P : prims} (cfgs : gmap string (gconf P)) (T : nat) (p : string) (Gs : list gobj).
Context (HN : honest_network cfgs T) (HG : valid_statements cfgs p Gs).
Context (Hagg : agg_correct P) (Hperm : fast_perm P) (Hdeser : forall sg : bls_sig P, bls_deser (bls_ser sg) = Some sg).

Definition the_sig (d : gconf P) (g : gobj) : sigfrag P :=
  mkfrag (bls_sign (cc_bls_sec (gc_crypto d)) (signed_msg g)) (cc_self (gc_crypto d)).
Notation the_frag := fragment_by.

Definition fm (g : gobj) : fam := if decide (g_type g = STH_INIT) then Sth else Rev.
Definition frag_id (g : gobj) : gid := mkgid p (frag_type (fm g)) (g_p0 g).
Definition full_id (g : gobj) : gid := mkgid p (full_type (fm g)) (g_p0 g).
Definition bucket (s : gst) (g : gobj) : list gobj := get_object_list s (frag_id g) (fm g).
Definition holds (s : gst) (g : gobj) : Prop := get_tbl s (OInit (fm g)) !! get_id g = Some g.
Definition fulls (s : gst) (g : gobj) : gmap gid gobj := get_tbl s (OFull (fm g)).

Record st_ok (c : gconf P) (s : gst) : Prop := mkstok {
  so_GI : GI c s;
  so_black : t_black s = ∅;
  so_period : k_period s = p;
  so_init : forall f i o, f <> Acc -> get_tbl s (OInit f) !! i = Some o -> o ∈ Gs /\ ToMonitor (gc_owner c) o ∈ t_trace s;
  so_frag : forall g o, g ∈ Gs -> o ∈ bucket s g -> exists v d, cfgs !! v = Some d /\ o = the_frag d g;
  so_nodup : forall g, g ∈ Gs -> NoDup (bucket s g);
  so_full : forall g, g ∈ Gs -> length (bucket s g) = T -> exists full, fulls s g !! full_id g = Some full /\
    verify (gc_crypto c) full = Accept /\ g_p1 full = g_p1 g /\ g_p2 full = g_p2 g /\ ToMonitor (gc_owner c) full ∈ t_trace s /\
    length (g_signers full) = T /\ NoDup (g_signers full) /\ (forall w, w ∈ g_signers full -> is_Some (cfgs !! w));
  so_none : forall g, g ∈ Gs -> length (bucket s g) < T -> fulls s g !! full_id g = None
}.

Lemma fm_acc g : fm g <> Acc.
Proof using. unfold fm. by destruct (decide _). Qed.

Lemma head_kind g : g ∈ Gs -> obj_kind g = KObj (OInit (fm g)).
Proof using HG.
  intros Hg. destruct (vs_type _ _ _ HG g Hg) as ([E|E] & _); unfold obj_kind, fm; rewrite E; [by rewrite decide_True|by rewrite decide_False].
Qed.

Lemma head_type g : g ∈ Gs -> g_type g = init_type (fm g).
Proof using HG. intros Hg. by apply head_kind, obj_kind_obj in Hg. Qed.

Lemma head_p0 g u c : g ∈ Gs -> cfgs !! u = Some c -> g_p0 g <> "".
Proof using HG.
  intros Hg Hc. pose proof (vs_verify _ _ _ HG g u c Hg Hc) as Hv. intros E. unfold verify in Hv. rewrite head_kind in Hv by done.
  unfold verify_rsa_payload in Hv. rewrite E in Hv. cbn [is_empty negb] in Hv. by rewrite andb_false_r in Hv.
Qed.

Lemma frag_fields d g : g ∈ Gs -> obj_kind (the_frag d g) = KFrag (fm g) /\ get_id (the_frag d g) = frag_id g /\
  g_p0 (the_frag d g) = g_p0 g /\ g_p1 (the_frag d g) = g_p1 g /\ g_p2 (the_frag d g) = g_p2 g /\
  g_s0 (the_frag d g) = sigfrag_string (the_sig d g) /\ g_s1 (the_frag d g) = g_s1 g.
Proof using HG.
  intros Hg. pose proof (head_kind g Hg) as Hk. pose proof (frag_of_kind d g (sigfrag_string (the_sig d g)) (fm g) Hk) as Hf.
  split; [exact Hf|]. apply obj_kind_frag in Hf. destruct (vs_type _ _ _ HG g Hg) as (_ & Ep & _).
  assert (get_id (the_frag d g) = frag_id g) as Hid.
  { unfold get_id, frag_id. change (the_frag d g) with (frag_of d g (sigfrag_string (the_sig d g))). rewrite Hf. by destruct g; cbn in *; subst. }
  split; [exact Hid|]. unfold fragment_by. by destruct g.
Qed.

Lemma sig_inj v d w e g h : cfgs !! v = Some d -> cfgs !! w = Some e -> 
  sigfrag_string (the_sig d g) = sigfrag_string (the_sig e h) -> v = w.
Proof using HN Hdeser.
  intros Hv Hw E. destruct (hn_self _ _ HN v d Hv) as [Sv Pv]. destruct (hn_self _ _ HN w e Hw) as [Sw Pw].
  assert (sigfrag_from_string (sigfrag_string (the_sig d g)) = (the_sig d g, true)) as Ev
    by (apply sigfrag_roundtrip; [cbn; by rewrite Sv|apply Hdeser]).
  assert (sigfrag_from_string (sigfrag_string (the_sig e h)) = (the_sig e h, true)) as Ew
    by (apply sigfrag_roundtrip; [cbn; by rewrite Sw|apply Hdeser]).
  rewrite E, Ew in Ev. injection Ev as _ Ev. congruence.
Qed.

Lemma honest_the_frag u c v d g : cfgs !! u = Some c -> cfgs !! v = Some d -> g ∈ Gs ->
  honest_fragment (gc_crypto c) (frag_id g) (g_p1 g) (g_p2 g) (the_frag d g).
Proof using HN HG.
  intros Hu Hv Hg. destruct (frag_fields d g Hg) as (_ & Fi & F0 & F1 & F2 & Fs & _).
  destruct (hn_self _ _ HN v d Hv) as [Sv Pv]. destruct (hn_keys _ _ HN u c v d Hu Hv) as (pk & Hpk & Hck).
  split_and!; auto. exists (the_sig d g), pk. cbn [sf_id sf_sign the_sig]. rewrite Sv. split_and!; auto.
  unfold covered. rewrite F0, F1, F2. apply Hck.
Qed.

Lemma run_GI (c : gconf P) s g : GI c s -> GI c (run (handle c g) s).1.1.
Proof using.
  intros HI. pose proof (safe_run (GI c) GR Gtok (λ w, w = NilDeref) (PreOrder0:=w_pre _ _ _ _ _ _ _ (walk_GI c))
      (w_tok _ _ _ _ _ _ _ (walk_GI c)) (λ _ _, True) (handle c g) s HI) as Hs.
  feed specialize Hs; [by eapply s_handle; [apply walk_GI|]|]. destruct (run (handle c g) s) as [[s' ts] [x|w]]; apply Hs.
Qed.

Lemma same_id g h : g ∈ Gs -> h ∈ Gs -> fm g = fm h -> g_p0 g = g_p0 h -> g = h.
Proof using HG. intros Hg Hh E. apply (vs_one _ _ _ HG); auto. by rewrite !head_type, E. Qed.

(** ** What is posted *)
Definition init_path (g : gobj) : string := endpoint_of (KObj (OInit (fm g))).
Definition frag_path (g : gobj) : string := endpoint_of (KFrag (fm g)).

Lemma fits (c : gconf P) g : (Z.of_nat (len (gobj_marshal g)) <= gc_opt_threshold c)%Z -> oversized c g = false.
Proof using. intros H. unfold oversized. by apply Z.ltb_ge. Qed.

Lemma out_head u c g : cfgs !! u = Some c -> g ∈ Gs -> outgoing c g = (init_path g, MObj g).
Proof using HG.
  intros Hu Hg. unfold outgoing, init_path. rewrite head_kind by done. unfold fm. destruct (decide (g_type g = STH_INIT)) as [|Hn]; [done|].
  destruct (vs_type _ _ _ HG g Hg) as ([E|E] & _); [done|]. destruct (vs_small _ _ _ HG g u c u c Hg E Hu Hu) as (_ & H & _). by rewrite fits.
Qed.

Lemma out_frag u c v d g : cfgs !! u = Some c -> cfgs !! v = Some d -> g ∈ Gs -> outgoing c (the_frag d g) = (frag_path g, MObj (the_frag d g)).
Proof using HG.
  intros Hu Hv Hg. unfold outgoing, frag_path. destruct (frag_fields d g Hg) as (-> & _). unfold fm. destruct (decide (g_type g = STH_INIT)) as [|Hn]; [done|].
  destruct (vs_type _ _ _ HG g Hg) as ([E|E] & _); [done|]. destruct (vs_small _ _ _ HG g u c v d Hg E Hu Hv) as (_ & _ & H). by rewrite fits.
Qed.

(** ** A statement arrives *)
Lemma on_head u c s g : cfgs !! u = Some c -> st_ok c s -> g ∈ Gs ->
  (holds s g /\ run (handle c g) s = (s, [], Done tt)) \/
  (~ holds s g /\ exists s' suf, run (handle c g) s = (s', [SignLater g], Done tt) /\ st_ok c s' /\
    (forall h, h ∈ Gs -> holds s' h <-> holds s h \/ h = g) /\ (forall h, bucket s' h = bucket s h) /\
    t_trace s' = (t_trace s ++ suf)%list /\ EvStored g ∈ suf /\ posts suf = map (λ v, mkpost v (init_path g) (MObj g)) (gc_neighbours c)).
Proof using All.
  intros Hu [HI Hb Hp Hin Hfr Hnd Hfu Hno] Hg. pose proof (head_kind g Hg) as Hk. pose proof (fm_acc g) as Hfa.
  destruct (get_tbl s (OInit (fm g)) !! get_id g) as [o|] eqn:El.
  - left. destruct (Hin _ _ _ Hfa El) as [Ho _]. pose proof HI as (H1 & _).
    destruct (H1 (OInit (fm g)) _ _ El) as (_ & Hid & Hty). injection Hid as _ Hty' Hid.
    assert (o = g) as -> by (by apply (vs_one _ _ _ HG)). split; [exact El|]. apply held_noop. left. exists (OInit (fm g)), g.
    split_and!; auto.
  - right. split; [unfold holds; by rewrite El|].
    assert (T = cc_threshold (gc_crypto c)) as ET by (symmetry; by apply (hn_threshold _ _ HN u)).
    pose proof (hn_enough _ _ HN) as HT.
    destruct (vs_type _ _ _ HG g Hg) as (Gt & Gp & Gs0).
    pose proof (run_GI c s g HI) as HI'.
    assert (run (handle c g) s = (published c (conv_i c (inserted s (OInit (fm g)) g)) g, [SignLater g], Done tt)) as Er.
    { unfold handle. rewrite (handle_stmt c 2 (fm g)) by (auto; lia).
      assert (is_duplicate s g = false) as -> by (unfold is_duplicate; rewrite Hk; by rewrite El).
      unfold in_blacklist. rewrite Hb, bool_decide_eq_false_2 by set_solver.
      assert (is_malicious s g = false) as ->.
      { unfold is_malicious, get_object, obj_at. rewrite Hk. destruct (fm g); [| |done]; rewrite El; by rewrite bool_decide_eq_false_2. }
      by rewrite (vs_verify _ _ _ HG g u c). }
    rewrite Er in HI' |- *. cbn [fst] in HI'. set (s' := published c (conv_i c (inserted s (OInit (fm g)) g)) g) in *.
    assert (t_trace s' = (t_trace s ++ EvStored g :: sends c g ++ [ToMonitor (gc_owner c) g])%list) as Et.
    { unfold s', published. autorewrite with gst. destruct (conv_i_fields c (inserted s (OInit (fm g)) g)) as (_ & _ & _ & -> & _).
      unfold inserted. autorewrite with gst. by rewrite <- !app_assoc. }
    assert (forall k, get_tbl s' k = get_tbl (inserted s (OInit (fm g)) g) k) as Etb.
    { intros k. unfold s', published. autorewrite with gst. by destruct (conv_i_fields c (inserted s (OInit (fm g)) g)) as (-> & _). }
    assert (forall f, get_frags s' f = get_frags s f) as Efr.
    { intros f. unfold s', published. autorewrite with gst. destruct (conv_i_fields c (inserted s (OInit (fm g)) g)) as (_ & -> & _).
      unfold inserted. by autorewrite with gst. }
    assert (forall f, get_tbl s' (OInit f) = if decide (fm g = f) then <[get_id g := g]> (get_tbl s (OInit f)) else get_tbl s (OInit f)) as Ei.
    { intros f. rewrite Etb. unfold inserted. autorewrite with gst. rewrite get_tbl_set_tbl. destruct (decide (fm g = f)) as [<-|Hn].
      - by rewrite decide_True.
      - rewrite decide_False by congruence. done. }
    assert (forall h, fulls s' h = fulls s h) as Ef.
    { intros h. unfold fulls. rewrite Etb. unfold inserted. autorewrite with gst. by rewrite get_tbl_set_tbl, decide_False. }
    assert (forall h, bucket s' h = bucket s h) as Ebk by (intros h; unfold bucket, get_object_list; by rewrite Efr).
    assert (forall e, e ∈ t_trace s -> e ∈ t_trace s') as Hsub by (intros e He; rewrite Et; apply elem_of_app; by left).
    exists s', (EvStored g :: sends c g ++ [ToMonitor (gc_owner c) g])%list. split; [done|]. split_and!; auto.
    + split; auto.
      * unfold s', published. autorewrite with gst. destruct (conv_i_fields c (inserted s (OInit (fm g)) g)) as (_ & _ & -> & _). unfold inserted. by autorewrite with gst.
      * unfold s', published. autorewrite with gst. unfold conv_i. destruct (is_init_convergent _ _); unfold inserted; by autorewrite with gst.
      * intros f i o Hf. rewrite Ei. intros Ho. assert (o = g \/ get_tbl s (OInit f) !! i = Some o) as [->|Ho'].
        { destruct (decide (fm g = f)); [|by right]. apply lookup_insert_Some in Ho as [[<- <-]|[_ Ho]]; [by left|by right]. }
        -- split; [done|]. rewrite Et. set_solver.
        -- destruct (Hin f _ _ Hf Ho'). auto.
      * intros h o. rewrite Ebk. apply Hfr.
      * intros h. rewrite Ebk. apply Hnd.
      * intros h Hh. rewrite Ebk, Ef. intros Hl. destruct (Hfu h Hh Hl) as (full & ? & ? & ? & ? & ? & ? & ? & ?). exists full. split_and!; auto.
      * intros h Hh. rewrite Ebk, Ef. by apply Hno.
    + intros h Hh. unfold holds. rewrite Ei. destruct (decide (fm g = fm h)) as [Efm|Efm].
      * destruct (decide (get_id h = get_id g)) as [E|E].
        -- assert (h = g) as -> by (apply same_id; auto; by injection E). rewrite lookup_insert. tauto.
        -- rewrite lookup_insert_ne by done. split; [auto|]. intros [?| ->]; done.
      * split; [auto|]. intros [?| ->]; done.
    + by left.
    + change (EvStored g :: sends c g ++ [ToMonitor (gc_owner c) g])%list with ([EvStored g] ++ sends c g ++ [ToMonitor (gc_owner c) g])%list.
      rewrite !posts_app. cbn [posts omap list_omap app]. rewrite app_nil_r. apply posts_sends. by apply (out_head u).
Qed.

(** ** A fragment arrives *)
Lemma on_frag u c s v d g : cfgs !! u = Some c -> cfgs !! v = Some d -> st_ok c s -> g ∈ Gs ->
  let o := the_frag d g in
  exists s' suf, run (handle c o) s = (s', [], Done tt) /\ st_ok c s' /\ (forall f, get_tbl s' (OInit f) = get_tbl s (OInit f)) /\
    t_trace s' = (t_trace s ++ suf)%list /\
    (((o ∈ bucket s g \/ length (bucket s g) = T) /\ (forall h, bucket s' h = bucket s h) /\ posts suf = []) \/
     (o ∉ bucket s g /\ length (bucket s g) < T /\ bucket s' g = (bucket s g ++ [o])%list /\
      (forall h, h ∈ Gs -> h <> g -> bucket s' h = bucket s h) /\ posts suf = map (λ w, mkpost w (frag_path g) (MObj o)) (gc_neighbours c))).
Proof using All.
  intros Hu Hv Hok Hg o. pose proof Hok as [HI Hb Hp Hin Hfr Hnd Hfu Hno]. pose proof (fm_acc g) as Hfa.
  destruct (frag_fields d g Hg) as (Fk & Fi & F0 & F1 & F2 & Fs & Fs1). fold o in Fk, Fi, F0, F1, F2, Fs, Fs1.
  assert (outgoing c o = (frag_path g, MObj o)) as Eout by (by apply (out_frag u c v d g)).
  assert (cc_threshold (gc_crypto c) = T) as ET by (by apply (hn_threshold _ _ HN u)).
  assert (cc_thr_scheme (gc_crypto c) = "bls") as Hbls by (by apply (hn_scheme _ _ HN u)).
  assert (length (bucket s g) <= T) as Hle.
  { unfold bucket, get_object_list, frags_at. destruct (get_frags s (fm g) !! frag_id g) as [l|] eqn:E; [|cbn; lia].
    destruct HI as (_ & _ & H3 & _). rewrite <- ET. by apply H3 in E as [? _]. }
  destruct (decide (o ∈ bucket s g)) as [Ho|Ho].
  { exists s, []. split; [|split_and!; auto; by rewrite app_nil_r].
    apply handle_dup. unfold is_duplicate. rewrite Fk, Fi. fold (bucket s g). apply existsb_exists. exists o.
    split; [by apply elem_of_list_In|]. unfold same_sig. by rewrite !bool_decide_eq_true_2. }
  assert ((g_s0 o, g_s1 o) ∉ map (λ x, (g_s0 x, g_s1 x)) (bucket s g)) as Hsg.
  { intros Hx. apply elem_of_list_fmap in Hx as (x & Ex & Hx). destruct (Hfr g x Hg Hx) as (w & e & Hw & ->).
    destruct (frag_fields e g Hg) as (_ & _ & _ & _ & _ & Es & _). rewrite Fs, Es in Ex. apply (f_equal fst) in Ex. cbn [fst] in Ex.
    assert (v = w) as -> by (exact (sig_inj v d w e g g Hv Hw Ex)). apply Ho. unfold o. by simplify_eq. }
  assert (is_duplicate s o = false) as Ed by (eapply not_dup_frag; eauto).
  assert (in_blacklist s (g_p0 o) = false) as Ebl by (unfold in_blacklist; rewrite Hb, bool_decide_eq_false_2 by set_solver; done).
  pose proof (run_GI c s o HI) as HI'. unfold handle in HI' |- *. rewrite (handle_fragment c 2 (fm g)) in HI' |- * by done.
  rewrite Ed, Ebl in HI' |- *. cbn zeta in HI' |- *. rewrite Fi in HI' |- *. fold (bucket s g) in HI' |- *. rewrite ET in HI' |- *.
  destruct (Nat.ltb_spec (length (bucket s g)) T) as [Hlt|Hge].
  2: { set (s' := add_trace s [EvBefore (frag_id g) (length (bucket s g))]) in *.
       assert (t_trace s' = (t_trace s ++ [EvBefore (frag_id g) (length (bucket s g))])%list) as Et by (unfold s'; by autorewrite with gst).
       assert (forall k, get_tbl s' k = get_tbl s k) as Etb by (intros k; unfold s'; by autorewrite with gst).
       assert (forall h, bucket s' h = bucket s h) as Ebk by (intros h; unfold bucket, get_object_list, s'; by autorewrite with gst).
       assert (forall h, fulls s' h = fulls s h) as Ef by (intros h; apply Etb).
       assert (forall e, e ∈ t_trace s -> e ∈ t_trace s') as Hsub by (intros e He; rewrite Et; apply elem_of_app; by left).
       eexists s', _. split; [reflexivity|]. split; [|split; [intros f; apply Etb|split; [exact Et|left]]].
       - split; auto.
         + unfold s'. by autorewrite with gst.
         + unfold s'. by autorewrite with gst.
         + intros f i x Hf. rewrite Etb. intros Hx. destruct (Hin f _ _ Hf Hx). auto.
         + intros h x. rewrite Ebk. apply Hfr.
         + intros h. rewrite Ebk. apply Hnd.
         + intros h Hh. rewrite Ebk, Ef. intros Hl. destruct (Hfu h Hh Hl) as (full & ? & ? & ? & ? & ? & ? & ? & ?). exists full. split_and!; auto.
         + intros h Hh. rewrite Ebk, Ef. by apply Hno.
       - split; [right; lia|]. split; [exact Ebk|done]. }
  assert (forall h, h ∈ Gs -> h <> g -> fm h = fm g -> g_p0 h <> g_p0 g) as Hne.
  { intros h Hh Hn E E'. apply Hn. by apply same_id. }
  assert (bucket (added s (fm g) o) g = (bucket s g ++ [o])%list) as Ebg.
  { unfold bucket. rewrite <- Fi, added_list. done. }
  assert (forall h, h ∈ Gs -> h <> g -> bucket (added s (fm g) o) h = bucket s h) as Ebh.
  { intros h Hh Hn. unfold bucket, get_object_list, frags_at, added. autorewrite with gst. rewrite get_frags_set_frags.
    destruct (decide (fm g = fm h)) as [E|E]; [|done].
    rewrite Fi, lookup_insert_ne; [by rewrite E|]. intros E'. apply (Hne h Hh Hn); [done|]. by injection E'. }
  assert (forall h, h ∈ Gs -> forall l, l = bucket (added s (fm g) o) h -> (forall x, x ∈ l -> exists w e, cfgs !! w = Some e /\ x = the_frag e h) /\ NoDup l) as Hbk.
  { intros h Hh l ->. destruct (decide (h = g)) as [->|Hn].
    - rewrite Ebg. split.
      + intros x Hx. apply elem_of_app in Hx as [Hx|Hx]; [by apply Hfr|]. apply elem_of_list_singleton in Hx as ->. exists v, d. done.
      + apply NoDup_app. split_and!; [by apply Hnd| |apply NoDup_singleton]. intros x Hx Hx'. apply elem_of_list_singleton in Hx' as ->. done.
    - rewrite Ebh by done. split; [by intros x; apply Hfr|by apply Hnd]. }
  destruct (Nat.eqb_spec (S (length (bucket s g))) T) as [ES|ES].
  2: { set (s' := add_trace (added s (fm g) o) (sends c o)) in *.
       assert (t_trace s' = (t_trace s ++ [EvBefore (get_id o) (length (get_object_list s (get_id o) (fm g)))] ++ sends c o)%list) as Et.
       { unfold s', added. autorewrite with gst. by rewrite <- app_assoc. }
       assert (forall h, bucket s' h = bucket (added s (fm g) o) h) as Eb' by (intros h; unfold bucket, get_object_list, s'; by autorewrite with gst).
       assert (forall k, get_tbl s' k = get_tbl s k) as Etb by (intros k; unfold s'; autorewrite with gst; apply added_tbl).
       assert (forall h, fulls s' h = fulls s h) as Ef by (intros h; apply Etb).
       assert (forall e, e ∈ t_trace s -> e ∈ t_trace s') as Hsub by (intros e He; rewrite Et; apply elem_of_app; by left).
       eexists s', _. split; [reflexivity|]. split; [|split; [intros f; apply Etb|split; [exact Et|right]]].
       - split; auto.
         + unfold s'. autorewrite with gst. by rewrite added_black.
         + unfold s'. autorewrite with gst. by rewrite added_period.
         + intros f i x Hf. rewrite Etb. intros Hx. destruct (Hin f _ _ Hf Hx). auto.
         + intros h x Hh. rewrite Eb'. by apply (Hbk h Hh).
         + intros h Hh. rewrite Eb'. by apply (Hbk h Hh _ eq_refl).
         + intros h Hh. rewrite Eb', Ef. destruct (decide (h = g)) as [->|Hn].
           * rewrite Ebg, app_length. cbn [length]. lia.
           * rewrite Ebh by done. intros Hl. destruct (Hfu h Hh Hl) as (full & ? & ? & ? & ? & ? & ? & ? & ?). exists full. split_and!; auto.
         + intros h Hh. rewrite Eb', Ef. destruct (decide (h = g)) as [->|Hn].
           * rewrite Ebg, app_length. cbn [length]. intros _. apply Hno; auto.
           * rewrite Ebh by done. by apply Hno.
       - split_and!; auto.
         + by rewrite Eb'.
         + intros h Hh Hn. rewrite Eb'. auto.
         + rewrite posts_app. cbn [posts omap list_omap app]. by rewrite (posts_sends c o _ _ Eout). }
  (* the last fragment *)
  set (l := bucket s g) in *.
  assert (exists ts, cc_thr_aggregate (gc_crypto c) (frags_of (l ++ [o])) = Some ts) as [ts Hts].
  { unfold cc_thr_aggregate, thr_aggregate, frags_of. rewrite Hbls. cbn [String.eqb Ascii.eqb Bool.eqb]. rewrite map_length, app_length. cbn [length].
    destruct (Nat.ltb_spec (length l + 1) (cc_threshold (gc_crypto c))); [lia|]. by eexists. }
  rewrite Hts in HI' |- *. set (full := full_of s (fm g) (hd o l) (l ++ [o]) ts) in *.
  assert (Forall (honest_fragment (gc_crypto c) (frag_id g) (g_p1 g) (g_p2 g)) (l ++ [o])) as Hh.
  { apply Forall_forall. intros x Hx. apply elem_of_app in Hx as [Hx|Hx].
    - destruct (Hfr g x Hg Hx) as (w & e & Hw & ->). by apply (honest_the_frag u c w).
    - apply elem_of_list_singleton in Hx as ->. by apply (honest_the_frag u c v). }
  assert (exists r, (l ++ [o])%list = hd o l :: r) as [r Hr] by (destruct l; [by exists []|by eexists]).
  assert (honest_fragment (gc_crypto c) (frag_id g) (g_p1 g) (g_p2 g) (hd o l)) as (H0i & H01 & H02 & _).
  { rewrite Hr in Hh. by inversion Hh. }
  assert (g_p0 (hd o l) = g_p0 g) as H0p by (by injection H0i).
  assert (verify (gc_crypto c) full = Accept) as Hvf.
  { eapply (full_accepted c Hagg Hperm Hdeser Hbls s (fm g) (frag_id g) (g_p1 g) (g_p2 g) _ r); eauto. by eapply head_p0. }
  assert (obj_kind full = KObj (OFull (fm g))) as Hkf by (unfold obj_kind; cbn; by destruct (fm g)).
  assert (get_id full = full_id g) as Hfi by (unfold get_id, full_id; cbn; by rewrite Hp, H0p).
  assert (length (g_signers full) = T /\ NoDup (g_signers full) /\ (forall w, w ∈ g_signers full -> is_Some (cfgs !! w))) as Hsig.
  { change (g_signers full) with (map g_signer (l ++ [o])). rewrite map_length, app_length. cbn [length].
    assert (forall x, x ∈ (l ++ [o])%list -> exists w e, cfgs !! w = Some e /\ x = the_frag e g /\ g_signer x = w) as Hx.
    { intros x Hx. rewrite <- Ebg in Hx. destruct (proj1 (Hbk g Hg _ eq_refl) x Hx) as (w & e & Hw & ->). exists w, e. split_and!; auto.
      rewrite <- (proj1 (hn_self _ _ HN w e Hw)). unfold fragment_by. by destruct g. }
    split_and!; [lia| |].
    - assert (NoDup (l ++ [o])%list) as Hnl by (rewrite <- Ebg; by apply (Hbk g Hg _ eq_refl)).
      clear -Hx Hnl. induction Hnl as [|x k Hxk Hk IH]; [constructor|]. cbn. constructor.
      + intros Hin. apply elem_of_list_fmap in Hin as (y & E & Hy). destruct (Hx x) as (w & e & Hw & -> & E1); [by left|].
        destruct (Hx y) as (w' & e' & Hw' & -> & E2); [by right|]. assert (w = w') as <- by congruence. apply Hxk. by simplify_eq.
      + apply IH. intros y Hy. apply Hx. by right.
    - intros w Hw. apply elem_of_list_fmap in Hw as (x & -> & Hxin). destruct (Hx x Hxin) as (w & e & Hw & _ & ->). by eexists. }
  set (s1 := add_trace (added s (fm g) o) [EvFull full]) in *.
  rewrite (handle_aggregate c 1 (fm g)) in HI' |- * by done.
  assert (get_tbl s1 (OFull (fm g)) !! get_id full = None) as Hn1.
  { unfold s1. autorewrite with gst. rewrite added_tbl, Hfi. by apply (Hno g). }
  assert (is_duplicate s1 full = false) as Ed1 by (unfold is_duplicate; by rewrite Hkf, Hn1).
  assert (in_blacklist s1 (g_p0 full) = false) as Eb1.
  { unfold in_blacklist, s1. autorewrite with gst. rewrite added_black, Hb. rewrite bool_decide_eq_false_2; [done|]. set_solver. }
  rewrite Ed1, Eb1, Hn1 in HI' |- *. cbn [fst] in HI'.
  unfold stored_full in HI' |- *. rewrite Hvf in HI' |- *. rewrite decide_False in HI' |- * by done.
  set (s2 := add_trace (inserted s1 (OFull (fm g)) full) [ToMonitor (gc_owner c) full]) in *.
  destruct (conv_f_fields c s2) as (E1 & E2 & E3 & E4 & E5).
  set (s' := add_trace (conv_f c s2) (sends c o)) in *.
  assert (forall k, get_tbl s' k = get_tbl (inserted s1 (OFull (fm g)) full) k) as Etb.
  { intros k. unfold s'. autorewrite with gst. rewrite E1. unfold s2. by autorewrite with gst. }
  assert (forall f, get_tbl s' (OInit f) = get_tbl s (OInit f)) as Ei.
  { intros f. rewrite Etb. unfold inserted. autorewrite with gst. rewrite get_tbl_set_tbl, decide_False by done.
    unfold s1. autorewrite with gst. apply added_tbl. }
  assert (forall h, fulls s' h = if decide (fm g = fm h) then <[full_id g := full]> (fulls s h) else fulls s h) as Ef.
  { intros h. unfold fulls. rewrite Etb. unfold inserted. autorewrite with gst. rewrite get_tbl_set_tbl. unfold s1. autorewrite with gst.
    destruct (decide (fm g = fm h)) as [E|E].
    - rewrite E, decide_True by done. by rewrite Hfi, added_tbl.
    - rewrite decide_False by congruence. by rewrite added_tbl. }
  assert (forall h, h ∈ Gs -> h <> g -> fulls s' h !! full_id h = fulls s h !! full_id h) as Efh.
  { intros h Hh' Hn. rewrite Ef. destruct (decide (fm g = fm h)) as [E|E]; [|done]. rewrite lookup_insert_ne; [done|].
    intros E'. apply (Hne h Hh' Hn); [done|]. by injection E'. }
  assert (forall h, bucket s' h = bucket (added s (fm g) o) h) as Eb'.
  { intros h. unfold bucket, get_object_list, s'. autorewrite with gst. rewrite E2. unfold s2, inserted, s1. by autorewrite with gst. }
  assert (t_trace s' = (t_trace s ++ [EvBefore (get_id o) (length (get_object_list s (get_id o) (fm g))); EvFull full; EvStored full; ToMonitor (gc_owner c) full] ++ sends c o)%list) as Et.
  { unfold s'. autorewrite with gst. rewrite E4. unfold s2, inserted, s1, added. autorewrite with gst. by rewrite <- !app_assoc. }
  assert (forall e, e ∈ t_trace s -> e ∈ t_trace s') as Hsub by (intros e He; rewrite Et; apply elem_of_app; by left).
  eexists s', _. split; [reflexivity|]. split; [|split; [exact Ei|split; [exact Et|right]]].
  - split; auto.
    + unfold s'. autorewrite with gst. rewrite E3. unfold s2, inserted, s1. autorewrite with gst. by rewrite added_black.
    + unfold s'. autorewrite with gst. unfold conv_f. destruct (is_convergent c s2); autorewrite with gst; unfold s2, inserted, s1; autorewrite with gst; by rewrite added_period.
    + intros f i x Hf. rewrite Ei. intros Hx. destruct (Hin f _ _ Hf Hx). auto.
    + intros h x Hh'. rewrite Eb'. by apply (Hbk h Hh').
    + intros h Hh'. rewrite Eb'. by apply (Hbk h Hh' _ eq_refl).
    + intros h Hh'. rewrite Eb'. destruct (decide (h = g)) as [->|Hn].
      * intros _. exists full. rewrite Ef, decide_True, lookup_insert by done. destruct Hsig as (? & ? & ?). split_and!; auto.
        rewrite Et. apply elem_of_app; right. apply elem_of_app; left. by do 3 right; left.
      * rewrite Ebh, Efh by done. intros Hl. destruct (Hfu h Hh' Hl) as (fu & ? & ? & ? & ? & ? & ? & ? & ?). exists fu. split_and!; auto.
    + intros h Hh'. rewrite Eb'. destruct (decide (h = g)) as [->|Hn].
      * rewrite Ebg, app_length. cbn [length]. fold l. lia.
      * rewrite Ebh, Efh by done. by apply Hno.
  - split_and!; auto.
    + by rewrite Eb'.
    + intros h Hh' Hn. rewrite Eb'. auto.
    + rewrite posts_app. cbn [posts omap list_omap app]. by rewrite (posts_sends c o _ _ Eout).
Qed.

End node.
Notation the_frag := fragment_by.
