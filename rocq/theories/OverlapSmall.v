(** Honest networks with overlapping handlers and a threshold of at most
    two: everybody gets an aggregate. *)
From Verif Require Import Bytes Hex Json Types Crypto Verify Prog Gossiper Network Overlap SpecCodec SpecVerify SpecGossiper SpecNetwork SpecOverlap ProgFacts Duty GstFacts CodecFacts CryptoFacts VerifyFacts GWalk GossiperInv GossiperSeq GossiperEvidence GossiperStep GossiperFrag GossiperMore NetworkNode NetworkFacts OverlapNode OverlapFacts Credit CreditNode.
From Coq Require Import Lia.
Open Scope string_scope.

Section net.
Context {P : prims} (cfgs : gmap string (gconf P)) (T : nat) (p : string) (Gs : list gobj).
Context (HN : honest_network cfgs T) (HG : valid_statements cfgs p Gs).
Context (Hagg : agg_correct P) (Hperm : fast_perm P) (Hdeser : forall sg : bls_sig P, bls_deser (bls_ser sg) = Some sg).
Context (Hnb : forall u c, cfgs !! u = Some c -> NoDup (gc_neighbours c)).

Notation bucket := (bucket p).
Notation J := (J cfgs T p Gs).
Notation grows := (grows p Gs).
Notation OI := (OI cfgs T p Gs).

Section fragment.
Context (v : string) (d : gconf P) (g : gobj) (Hv : cfgs !! v = Some d) (Hg : g ∈ Gs).
Notation o := (the_frag d g).
Notation few_posts c := (few_posts cfgs T p Gs c d g).
Notation few_copies c := (few_copies cfgs T p Gs c d g).
Notation sent := (sent d g).
Notation copies := (copies p d g).

Lemma sent_delete x l i q : l !! i = Some q -> sent x l = sent x (delete i l) + (if decide (q = frag_post x g o) then 1 else 0).
Proof using.
  intros H. apply list_mid in H as (l1 & l2 & -> & ->). rewrite delete_mid, !sent_app. change (q :: l2) with ([q] ++ l2)%list. rewrite sent_app. unfold CreditNode.sent at 2.
  destruct (decide _) as [E|E]; [rewrite filter_cons_True by done|rewrite filter_cons_False by done]; cbn; lia.
Qed.

(** What a step of the network does. *)
Record change (N N' : onet) (u : string) (c : gconf P) (y y' : gpool) (F : list post) : Prop := mkchange {
  ch_cfg : cfgs !! u = Some c;
  ch_node : on_nodes N !! u = Some y;
  ch_eq : N' = mkonet (<[u := y']> (on_nodes N)) (F ++ posts (drop (length (t_trace (p_st y))) (t_trace (p_st y'))))%list;
  ch_grows : grows (p_st y) (p_st y');
  ch_posts : forall z K, few_posts c z K y -> few_posts c z K y';
  ch_copies :
    (forall x, sent x F = sent x (on_flight N)) /\ (forall K, few_copies c K y -> few_copies c K y') \/
    (forall x, sent x (on_flight N) = sent x F + (if decide (x = u) then 1 else 0)) /\ p_st y' = p_st y /\
    (forall K, few_copies c K y -> few_copies c (K + 1) y') /\
    (o ∈ bucket (p_st y) g -> forall K, few_copies c K y -> few_copies c K y')
}.

Lemma step_change E fires hd N e : OI E fires hd N -> oallowed p Gs e ->
  onet_step cfgs N e = N \/ exists u c y y' F, change N (onet_step cfgs N e) u c y y' F.
Proof using HN HG Hagg Hperm Hdeser Hnb Hv Hg.
  intros HI He. pose proof HI as [A1 A2 A3 A4 A5 A6].
  assert (forall u, (exists c (y : gpool), cfgs !! u = Some c /\ on_nodes N !! u = Some y) \/ cfgs !! u = None) as Hcase.
  { intros u. destruct (cfgs !! u) as [c|] eqn:Hu; [left|by right]. destruct (proj2 (A1 u)) as [y Hy]; [by eexists|]. eauto. }
  destruct e as [u h|i|u i|u i|u q sec st]; cbn [oallowed onet_step] in *.
  - destruct (Hcase u) as [(c & y & Hu & Hy)|Hn]; [|left; by apply oact_none]. right.
    exists u, c, y, (thread_add (handle c h) y), (on_flight N). rewrite (oact_eq cfgs _ _ c y) by done.
    cbn [request_prog]. rewrite (request_head cfgs p Gs HG u c Hu h He). split; auto; [reflexivity| |left; split; [done|]].
    + intros z K. rewrite <- (Nat.add_0_r K) at 2. apply within_add. by apply (posts_init cfgs T p Gs HN HG u c Hu v d g Hv Hg).
    + intros K. rewrite <- (Nat.add_0_r K) at 2. apply within_add. by apply (copies_init cfgs T p Gs HN HG Hdeser u c Hu v d g Hv Hg).
  - destruct (on_flight N !! i) as [q|] eqn:Hq; [|by left].
    destruct (A3 q) as ([c Hu] & h & Hh & Hs); [by apply elem_of_list_lookup_2 in Hq|]. set (u := po_to q) in *.
    destruct (proj2 (A1 u)) as [y Hy]; [by eexists|]. right. destruct Hs as [Eq|(w & e & Hw & Eq)].
    + exists u, c, y, (thread_add (handle c h) y), (delete i (on_flight N)).
      assert (arrival q = Some (Recv (Z.of_nat (len (gobj_marshal h))) h)) as -> by (rewrite Eq; apply arrival_object, paths_known).
      rewrite (oact_eq cfgs _ _ c y) by done. cbn [request_prog on_nodes on_flight]. rewrite (request_head cfgs p Gs HG u c Hu h Hh). split; auto; [reflexivity| |left; split].
      * intros z K. rewrite <- (Nat.add_0_r K) at 2. apply within_add. by apply (posts_init cfgs T p Gs HN HG u c Hu v d g Hv Hg).
      * intros x. rewrite (sent_delete x _ _ _ Hq). rewrite decide_False; [lia|]. rewrite Eq. intros E'. injection E' as _ E' _. by apply paths_differ in E'.
      * intros K. rewrite <- (Nat.add_0_r K) at 2. apply within_add. by apply (copies_init cfgs T p Gs HN HG Hdeser u c Hu v d g Hv Hg).
    + exists u, c, y, (thread_add (handle c (the_frag e h)) y), (delete i (on_flight N)).
      assert (arrival q = Some (Recv (Z.of_nat (len (gobj_marshal (the_frag e h)))) (the_frag e h))) as -> by (rewrite Eq; apply arrival_object, paths_known).
      rewrite (oact_eq cfgs _ _ c y) by done. cbn [request_prog on_nodes on_flight]. rewrite (request_frag cfgs p Gs HG u c Hu w) by done. split; auto; [reflexivity| |].
      * intros z K. rewrite <- (Nat.add_0_r K) at 2. apply within_add. apply (posts_frag cfgs T p Gs HN HG Hagg Hperm Hdeser u c Hu v d g Hv Hg z (Hnb u c Hu) w); auto.
      * pose proof (copies_frag cfgs T p Gs HN HG Hagg Hperm Hdeser u c Hu v d g Hv Hg w e h (p_st y) Hw Hh) as Hc.
        destruct (decide (the_frag e h = o)) as [Eo|Eo].
        -- right. destruct (frag_same cfgs T p Gs HN HG Hdeser v d g Hv Hg w e h Hw Hh Eo) as [-> ->]. assert (e = d) as -> by congruence. split_and!; [|done| |].
           ++ intros x. rewrite (sent_delete x _ _ _ Hq). f_equal. destruct (decide (x = u)) as [->|Hne]; [by rewrite decide_True|].
              rewrite decide_False; [done|]. rewrite Eq. intros [=]. congruence.
           ++ intros K. by apply within_add.
           ++ intros Ho K. rewrite <- (Nat.add_0_r K) at 2. apply within_add. by apply copies_dup.
        -- left. split.
           ++ intros x. rewrite (sent_delete x _ _ _ Hq). rewrite decide_False; [lia|]. rewrite Eq. by intros [=].
           ++ intros K. rewrite <- (Nat.add_0_r K) at 2. by apply within_add.
  - destruct (Hcase u) as [(c & y & Hu & Hy)|Hn]; [|left; by apply oact_none]. right.
    exists u, c, y, (thread_step i y), (on_flight N). rewrite (oact_eq cfgs _ _ c y) by done.
    pose proof (A2 u c y Hu Hy) as Hp. destruct (node_run cfgs T p Gs c (fires u) i y Hp) as (B1 & B2 & _).
    pose proof (pg_inv _ _ _ _ _ _ _ _ _ _ _ _ _ Hp) as J1. pose proof (pg_inv _ _ _ _ _ _ _ _ _ _ _ _ _ B1) as J2.
    pose proof (proj1 (pg_ok _ _ _ _ _ _ _ _ _ _ _ _ _ Hp)) as G1. pose proof (proj1 (pg_ok _ _ _ _ _ _ _ _ _ _ _ _ _ B1)) as G2.
    split; auto; [|left; split; [done|]]; intros; apply within_thread; auto; apply _.
  - destruct (Hcase u) as [(c & y & Hu & Hy)|Hn]; [|left; by apply oact_none]. right.
    exists u, c, y, (task_start (start_task c) i y), (on_flight N). rewrite (oact_eq cfgs _ _ c y) by done.
    pose proof (A2 u c y Hu Hy) as Hp. pose proof (pg_tasks _ _ _ _ _ _ _ _ _ _ _ _ _ Hp) as Ht. rewrite Forall_forall in Ht.
    assert (p_st (task_start (start_task c) i y) = p_st y) as Es by (unfold task_start; by destruct (p_tasks y !! i)).
    split; auto; [by rewrite Es| |left; split; [done|]]; intros; apply within_start; auto; intros t Hin.
    + apply (posts_timer cfgs T p Gs HN HG Hagg Hperm Hdeser u c Hu v d g Hv Hg z (Hnb u c Hu)); auto.
    + apply (copies_timer cfgs T p Gs HN HG Hagg Hperm Hdeser u c Hu v d g Hv Hg); auto.
  - subst q. destruct (Hcase u) as [(c & y & Hu & Hy)|Hn]; [|left; by apply oact_none]. right.
    exists u, c, y, (mkpool (set_clock (p_st y) p sec st) (p_threads y) (p_tasks y) (p_crashes y)), (on_flight N). rewrite (oact_eq cfgs _ _ c y) by done.
    pose proof (A2 u c y Hu Hy) as Hp. destruct (node_tick cfgs T p Gs c (fires u) y sec st Hp) as (B1 & B2 & _).
    pose proof (pg_inv _ _ _ _ _ _ _ _ _ _ _ _ _ Hp) as HJ.
    assert (frame cfgs p Gs (p_st y) (set_clock (p_st y) p sec st) []) as Fr.
    { split; intros; autorewrite with gst; auto; [by rewrite (j_period _ _ _ _ _ HJ)|by rewrite app_nil_r|by apply elem_of_nil in H..]. }
    assert (aside p d g (p_st y) (set_clock (p_st y) p sec st)) as Ha.
    { eapply aside_frame; [exact Fr|]. by intros ? ?%elem_of_nil. }
    split; auto; [|left; split; [done|]]; intros; apply within_env; auto; try apply _.
    + apply (pp_aside p c d g z _ _ Ha).
    + apply (pp_aside p c d g z _ _ Ha).
    + apply (qq_aside p c d g _ _ Ha).
    + apply (qq_aside p c d g _ _ Ha).
Qed.

(** Before anybody but its signer stores the fragment. *)
Record early (K : string -> nat) (N : onet) : Prop := mkearly {
  ea_node : forall x c (y : gpool), cfgs !! x = Some c -> on_nodes N !! x = Some y ->
    (forall z, few_posts c z 0 y) /\ few_copies c (K x) y /\ (x <> v -> o ∉ bucket (p_st y) g);
  ea_count : forall x (y : gpool), on_nodes N !! v = Some y -> sent x (on_flight N) + K x <= sent x (posts (t_trace (p_st y)))
}.
(** After that: the first to store it stores it once. *)
Definition late (N : onet) : Prop := exists x c (y : gpool), x <> v /\ cfgs !! x = Some c /\ on_nodes N !! x = Some y /\
  o ∈ bucket (p_st y) g /\ few_copies c 1 y.

Lemma signer_le (c : gconf P) s : signer c d g s <= 1.
Proof using. unfold signer. destruct (decide _); lia. Qed.
Lemma early_bound K N x (y : gpool) : on_nodes N !! v = Some y -> early K N -> K v = 0 /\ sent v (on_flight N) = 0 /\ K x <= 1.
Proof using HN Hv.
  intros Hy [H1 H2]. destruct (H1 v d y Hv Hy) as (Hp & Hc & _).
  pose proof (within_cost _ _ _ _ _ _ _ (Hp v)) as Hpv. pose proof (H2 v y Hy) as Hcv. cbn beta in *.
  assert (room p d d g v (p_st y) = 0) as Er.
  { unfold room. rewrite decide_False; [done|]. intros Hin. by apply (hn_connected _ _ HN v d Hv) in Hin as [? _]. }
  rewrite Er in Hpv. assert (K v = 0) as EK by lia. split; [done|]. split; [lia|].
  rewrite EK in Hc. apply within_cost in Hc. pose proof (signer_le d (p_st y)). pose proof (H2 x y Hy) as Hx. pose proof (within_cost _ _ _ _ _ _ _ (Hp x)) as Hpx. cbn beta in *.
  assert (room p d d g x (p_st y) <= copies (p_st y)) by (unfold room; destruct (decide _); lia). lia.
Qed.

Lemma phase_step E fires hd N e : OI E fires hd N -> oallowed p Gs e -> (exists K, early K N) \/ late N ->
  (exists K, early K (onet_step cfgs N e)) \/ late (onet_step cfgs N e).
Proof using HN HG Hagg Hperm Hdeser Hnb Hv Hg.
  intros HI He Hph. destruct (step_change E fires hd N e HI He) as [->|(u & c & y & y' & F & [B1 B2 B3 B4 B5 B6])]; [done|]. rewrite B3. clear B3.
  assert (o ∈ bucket (p_st y) g -> o ∈ bucket (p_st y') g) as Hin by (by apply (gr_frag _ _ _ _ B4)).
  destruct Hph as [[K Hph]|(x & cx & yx & Hx & Hcx & Hyx & Ho & Hf)].
  2: { right. destruct (decide (x = u)) as [->|Hne].
       - assert (cx = c) as -> by congruence. pose proof (eq_trans (eq_sym B2) Hyx) as Ey. injection Ey as <-. exists u, c, y'. cbn [on_nodes]. rewrite lookup_insert. split_and!; auto.
         destruct B6 as [[_ B6]|(_ & _ & _ & B6)]; auto.
       - exists x, cx, yx. cbn [on_nodes]. rewrite lookup_insert_ne by done. split_and!; auto. }
  destruct (proj2 (oi_dom _ _ _ _ _ _ _ _ HI v)) as [yv Hyv]; [by eexists|].
  destruct (early_bound K N u yv Hyv Hph) as (Kv & Fv & Ku). pose proof Hph as [A1 A2].
  destruct (A1 u c y B1 B2) as (C1 & C2 & C3). destruct (gr_trace _ _ _ _ B4) as [suf Es]. rewrite Es, drop_app.
  destruct B6 as [[B6 B7]|(B6 & B7 & B8 & _)].
  - destruct (decide (u = v)) as [->|Hne].
    + left. exists K. assert (c = d) as -> by congruence. split; cbn [on_nodes on_flight].
      * intros x cx yx Hcx. destruct (decide (x = v)) as [->|Hx]; [rewrite lookup_insert|rewrite lookup_insert_ne by done; by apply A1].
        intros [= <-]. assert (cx = d) as -> by congruence. split_and!; auto.
      * intros x z. rewrite lookup_insert. intros [= <-]. rewrite sent_app, B6, Es, posts_app, sent_app. pose proof (A2 x y B2). lia.
    + destruct (decide (o ∈ bucket (p_st y') g)) as [Ho|Ho].
      * right. exists u, c, y'. cbn [on_nodes]. rewrite lookup_insert. split_and!; auto. eapply within_more; [exact Ku|]. exact (B7 _ C2).
      * left. exists K. split; cbn [on_nodes on_flight].
        -- intros x cx yx Hcx. destruct (decide (x = u)) as [->|Hx]; [rewrite lookup_insert|rewrite lookup_insert_ne by done; by apply A1].
           intros [= <-]. assert (cx = c) as -> by congruence. split_and!; auto.
        -- intros x z. rewrite lookup_insert_ne by done. intros Hz. rewrite sent_app, B6. pose proof (A2 x z Hz).
           pose proof (within_cost _ _ _ _ _ _ _ (B5 x 0 (C1 x))) as Hp. cbn beta in Hp. rewrite Es, posts_app, sent_app in Hp.
           assert (room p c d g x (p_st y') <= 0) as Hr by (unfold room; rewrite copies_none by done; by destruct (decide _)). lia.
  - rewrite B7 in Es. assert (suf = []) as ->.
    { apply (f_equal length) in Es. rewrite app_length in Es. destruct suf; [done|cbn in Es; lia]. }
    cbn [posts omap list_omap]. change (posts []) with (@nil post). rewrite app_nil_r. destruct (decide (u = v)) as [->|Hne].
    { specialize (B6 v). rewrite decide_True in B6 by done. lia. }
    left. exists (λ x, if decide (x = u) then K u + 1 else K x). split; cbn [on_nodes on_flight].
    + intros x cx yx Hcx. destruct (decide (x = u)) as [->|Hx]; [rewrite lookup_insert|rewrite lookup_insert_ne by done; by apply A1].
      intros [= <-]. assert (cx = c) as -> by congruence. rewrite B7. split_and!; auto.
    + intros x z. rewrite lookup_insert_ne by done. intros Hz. specialize (B6 x). pose proof (A2 x z Hz). destruct (decide (x = u)) as [->|]; lia.
Qed.

Lemma phase_init sec st : exists K, early K (onet_init cfgs p sec st).
Proof using.
  assert (forall u y, on_nodes (onet_init cfgs p sec st) !! u = Some y -> y = init_pool p sec st) as Hy.
  { intros u y. cbn. rewrite lookup_fmap. destruct (cfgs !! u); [by intros [= <-]|done]. }
  assert (bucket (init_gst p sec st) g = []) as Hb.
  { unfold NetworkNode.bucket, get_object_list, frags_at. destruct (fm g); cbn; by rewrite lookup_empty. }
  exists (λ _, 0). split.
  - intros x c y Hc Hyx. apply Hy in Hyx as ->. split_and!.
    + intros z. exists []. cbn. split; [constructor|lia].
    + exists []. cbn. split; [constructor|]. unfold CreditNode.copies. rewrite Hb. cbn. lia.
    + intros _. cbn [init_pool p_st]. rewrite Hb. apply not_elem_of_nil.
  - intros x y Hyx. apply Hy in Hyx as ->. cbn. lia.
Qed.

Lemma phase_run E fires hd N l : OI E fires hd N -> Forall (oallowed p Gs) l -> (exists K, early K N) \/ late N ->
  (exists K, early K (onet_run cfgs N l)) \/ late (onet_run cfgs N l).
Proof using HN HG Hagg Hperm Hdeser Hnb Hv Hg.
  revert E fires hd N. induction l as [|e l IH]; intros E fires hd N HI Hl Hph; [done|]. apply Forall_cons in Hl as [He Hl].
  destruct (one_step cfgs T p Gs HN HG Hagg Hperm Hdeser _ _ _ _ e HI He) as [f1 H1]. cbn. eapply IH; eauto. by eapply phase_step.
Qed.
End fragment.

Lemma small_full (HT : T <= 2) sec st l : Forall (oallowed p Gs) l -> oquiescent (onet_run cfgs (onet_init cfgs p sec st) l) ->
  forall u c (y : gpool) g v d (z : gpool), cfgs !! u = Some c -> on_nodes (onet_run cfgs (onet_init cfgs p sec st) l) !! u = Some y -> g ∈ Gs -> holds (p_st y) g ->
  cfgs !! v = Some d -> on_nodes (onet_run cfgs (onet_init cfgs p sec st) l) !! v = Some z -> T <= length (bucket (p_st z) g).
Proof using HN HG Hagg Hperm Hdeser Hnb.
  intros Hl HQ u c y g v d z Hu Hy Hg Hh Hv Hz. destruct (decide (T <= length (bucket (p_st z) g))) as [|Hlen]; [done|exfalso].
  destruct (run_OI cfgs T p Gs HN HG Hagg Hperm Hdeser _ _ _ _ l (OI_init cfgs T p Gs HN HG Hagg Hperm Hdeser sec st) Hl) as (f & hd & HI & _).
  pose proof (phase_run v d g Hv Hg _ _ _ _ l (OI_init cfgs T p Gs HN HG Hagg Hperm Hdeser sec st) Hl (or_introl (phase_init v d g sec st))) as Hph.
  set (N := onet_run _ _ _) in *.
  pose proof (oq_heads cfgs T p Gs HN _ _ _ _ HI HQ u c y g v d z Hu Hy Hg Hh Hv Hz) as Hhz.
  destruct (quiet_due cfgs T p Gs _ _ _ _ HI HQ v d z (d_own T p d g) Hv Hz) as [Hown|Hown]; [by apply due_own|done| |done].
  assert (T = 2 /\ bucket (p_st z) g = [the_frag d g]) as [ET Eb].
  { destruct (bucket (p_st z) g) as [|a [|b k]]; [by apply elem_of_nil in Hown| |cbn in Hlen; lia]. apply elem_of_list_singleton in Hown as <-. cbn in Hlen. split; [lia|done]. }
  assert (forall w e (x : gpool), w <> v -> cfgs !! w = Some e -> on_nodes N !! w = Some x -> 2 <= copies p d g (p_st x)) as Htwo.
  { intros w e x Hw He Hx.
    assert (forall o, o ∈ bucket (p_st x) g -> o = the_frag d g) as Hcome.
    { intros o Ho. destruct (oq_frags cfgs T p Gs HN _ _ _ _ HI HQ w e x g v d z o He Hx Hg Ho Hv Hz) as [H|H]; [|done].
      rewrite Eb in H. by apply elem_of_list_singleton in H. }
    pose proof (oq_heads cfgs T p Gs HN _ _ _ _ HI HQ u c y g w e x Hu Hy Hg Hh He Hx) as Hhx.
    destruct (quiet_due cfgs T p Gs _ _ _ _ HI HQ w e x (d_own T p e g) He Hx) as [Ho|Ho]; [by apply due_own|done| |].
    - apply Hcome in Ho. by destruct (frag_same cfgs T p Gs HN HG Hdeser v d g Hv Hg w e g He Hg Ho).
    - assert (copies p d g (p_st x) = length (bucket (p_st x) g)) as ->; [|lia]. unfold copies. f_equal.
      clear -Hcome. induction (bucket (p_st x) g) as [|a k IH]; [done|]. rewrite filter_cons_True by (apply Hcome; by left). f_equal. apply IH. intros o Ho. apply Hcome. by right. }
  destruct Hph as [[K [A1 A2]]|(x & cx & yx & Hx & Hcx & Hyx & Ho & Hf)].
  - assert (exists w e, w <> v /\ cfgs !! w = Some e) as (w & e & Hw & He).
    { destruct (decide (delete v cfgs = ∅)) as [E0|E0].
      - pose proof (hn_enough _ _ HN) as Hs. assert (size cfgs = S (size (delete v cfgs))) as Es.
        { rewrite <- (insert_delete cfgs v d Hv) at 1. rewrite map_size_insert_None; [done|apply lookup_delete]. }
        rewrite E0, map_size_empty in Es. lia.
      - apply map_choose in E0 as (w & e & H). apply lookup_delete_Some in H as [? ?]. eauto. }
    destruct (proj2 (oi_dom _ _ _ _ _ _ _ _ HI w)) as [x Hx]; [by eexists|].
    destruct (A1 w e x He Hx) as (_ & _ & Hno). pose proof (Htwo w e x Hw He Hx). rewrite copies_none in *; [lia|]. by apply Hno.
  - pose proof (Htwo x cx yx Hx Hcx Hyx). apply within_cost in Hf.
    assert (signer cx d g (p_st yx) = 0) as Es; [|lia]. unfold signer. rewrite decide_False; [done|]. intros [E' _].
    by destruct (frag_same cfgs T p Gs HN HG Hdeser v d g Hv Hg x cx g Hcx Hg E').
Qed.
End net.

(** Everybody gets an aggregate if two fragments suffice, however handlers
    overlap. *)
Theorem overlap_small_threshold {P : prims} (cfgs : gmap string (gconf P)) T p (Gs : list gobj) :
  honest_network cfgs T -> valid_statements cfgs p Gs ->
  agg_correct P -> fast_perm P -> (forall sg : bls_sig P, bls_deser (bls_ser sg) = Some sg) ->
  (forall u c, cfgs !! u = Some c -> NoDup (gc_neighbours c)) -> T <= 2 ->
  forall sec st l, Forall (oallowed p Gs) l -> oquiescent (onet_run cfgs (onet_init cfgs p sec st) l) ->
  forall u g, OHand u g ∈ l -> is_Some (cfgs !! u) ->
  forall v c, cfgs !! v = Some c -> exists (y : gpool) full, on_nodes (onet_run cfgs (onet_init cfgs p sec st) l) !! v = Some y /\
    full_table (p_st y) g !! mkgid p (full_name g) (g_p0 g) = Some full /\ verify (gc_crypto c) full = Accept /\
    g_p1 full = g_p1 g /\ g_p2 full = g_p2 g /\ ToMonitor (gc_owner c) full ∈ t_trace (p_st y).
Proof.
  intros HN HG Hagg Hperm Hdeser Hnb HT sec st l Hl HQ u g Hin Hu v c Hv.
  destruct (handed_held cfgs T p Gs HN HG Hagg Hperm Hdeser sec st l u g Hl HQ Hin Hu) as (E & f & hd & d & y & HI & Hd & Hy & Hg & Hh).
  destruct (proj2 (oi_dom _ _ _ _ _ _ _ _ HI v)) as [z Hz]; [by eexists|].
  pose proof (small_full cfgs T p Gs HN HG Hagg Hperm Hdeser Hnb HT sec st l Hl HQ u d y g v c z Hd Hy Hg Hh Hv Hz) as Hlen.
  destruct (full_there cfgs T p Gs _ _ _ _ HI HQ v c z g Hv Hz Hg Hlen) as (full & H1 & H2 & H3 & H4 & H5 & _). exists z, full. split_and!; auto.
Qed.
