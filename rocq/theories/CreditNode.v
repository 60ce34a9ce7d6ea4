(** Copies of one fragment at one gossiper, and the posts that carry it,
    whatever its handlers do in between. *)
From Verif Require Import Bytes Hex Json Types Crypto Verify Prog Gossiper Network Overlap SpecCodec SpecVerify SpecGossiper SpecNetwork SpecOverlap ProgFacts Duty GstFacts CodecFacts CryptoFacts VerifyFacts GWalk GossiperInv GossiperSeq GossiperEvidence GossiperStep GossiperFrag GossiperMore NetworkNode NetworkFacts OverlapNode OverlapFacts Credit.
From Coq Require Import Lia.
Open Scope string_scope.

Global Instance notification_eq_dec : EqDecision notification.
Proof. solve_decision. Defined.
Global Instance gmsg_eq_dec : EqDecision gmsg.
Proof. solve_decision. Defined.
Global Instance post_eq_dec : EqDecision post.
Proof. solve_decision. Defined.
Global Instance holds_dec s g : Decision (holds s g).
Proof. unfold holds. apply _. Defined.

Section node.
Context {P : prims} (cfgs : gmap string (gconf P)) (T : nat) (p : string) (Gs : list gobj).
Context (HN : honest_network cfgs T) (HG : valid_statements cfgs p Gs).
Context (Hagg : agg_correct P) (Hperm : fast_perm P) (Hdeser : forall sg : bls_sig P, bls_deser (bls_ser sg) = Some sg).
Context (u : string) (c : gconf P) (Hu : cfgs !! u = Some c).
(** The fragment of gossiper [v] for statement [g]. *)
Context (v : string) (d : gconf P) (g : gobj) (Hv : cfgs !! v = Some d) (Hg : g ∈ Gs).
Notation o := (the_frag d g).

Notation bucket := (bucket p).
Notation J := (J cfgs T p Gs).
Notation grows := (grows p Gs).
Notation frame := (frame cfgs p Gs).
Notation okfull := (okfull cfgs T p c).

(** Nothing changes but the trace, and no post carries the fragment. *)
Definition copies (s : gst) : nat := length (filter (λ x, x = o) (bucket s g)).
Definition aside (s s' : gst) : Prop := (holds s' g <-> holds s g) /\ copies s' = copies s /\
  exists l, t_trace s' = (t_trace s ++ l)%list /\ forall q, q ∈ posts l -> forall z, q <> frag_post z g o.

Section generic.
Context (B C : gst -> nat) (w : gtask -> nat) (ca cr : nat).
Context (H_aside : forall s s', aside s s' -> C s' = C s /\ B s' = B s).
Context (H_relay : forall s, C (add_trace s (sends c o)) + B s <= C s + cr + B (add_trace s (sends c o))).
Context (H_head : forall s s' h, h ∈ Gs -> ~ holds s h -> (forall h', h' ∈ Gs -> holds s' h' <-> holds s h' \/ h' = h) -> copies s' = copies s ->
  posts (t_trace s') = posts (t_trace s) -> C s' + w (SignLater h) + B s <= C s + B s').
Context (H_added : forall s s', (holds s' g <-> holds s g) -> copies s' = S (copies s) ->
  posts (t_trace s') = posts (t_trace s) -> C s' + cr + B s <= C s + ca + B s').
Context (H_timer : forall h, h ∈ Gs -> the_frag c h = o -> ca <= w (SignLater h)).

Notation cheap := (cheap (λ s, GI c s /\ J s) grows B C w).

Lemma x_read {A X} n (f : gst -> X) (k : X -> gprog A) s :
  (forall s1, grows s s1 -> GI c s1 -> J s1 -> cheap n (k (f s1)) s1) -> cheap n (Act (λ s, (s, f s)) k) s.
Proof using. clear. intros H. apply cheap_read. intros s1 H1 [H2 H3]. by apply H. Qed.

Lemma x_aside {A} n (F : gst -> gst) (k : unit -> gprog A) s :
  (forall s1, aside s1 (F s1)) -> (forall s1, cheap n (k tt) (F s1)) -> cheap n (Act (λ s, (F s, tt)) k) s.
Proof using H_aside.
  intros HF Hk s1 _ _ _ _. cbn [fst snd]. exists n. split; [|apply Hk]. destruct (H_aside _ _ (HF s1)). lia.
Qed.

Lemma aside_frame s s' l : frame s s' l -> (forall q, q ∈ posts l -> forall z, q <> frag_post z g o) -> aside s s'.
Proof using.
  intros F Hl. split; [by eapply frame_holds|]. split; [unfold copies; by rewrite (frame_bucket cfgs p Gs _ _ _ _ F)|]. exists l. split; [|done]. by destruct F.
Qed.
Lemma aside_quiet s e : (forall z ep m, e <> ToGossiper z ep m) -> aside s (add_trace s [e]).
Proof using cfgs Gs. intros H. split; [unfold holds; by autorewrite with gst|]. split; [unfold copies, NetworkNode.bucket, get_object_list; by autorewrite with gst|].
  exists [e]. split; [by autorewrite with gst|]. destruct e; cbn; try by (intros ? ?%elem_of_nil). by destruct (H url endpoint m). Qed.
Lemma aside_conv_init s x : aside s (set_conv_init s x).
Proof using cfgs Gs. apply (aside_frame _ _ []); [apply frame_conv_init|]. by intros ? ?%elem_of_nil. Qed.
Lemma aside_conv s x : aside s (set_conv s x).
Proof using cfgs Gs. apply (aside_frame _ _ []); [apply frame_conv|]. by intros ? ?%elem_of_nil. Qed.
Lemma aside_head s h : h ∈ Gs -> aside s (add_trace s (sends c h)).
Proof using HN HG Hu Hv Hg.
  intros Hh. apply (aside_frame _ _ (sends c h)); [by eapply frame_sends_head|]. intros q. rewrite (posts_sends c h _ _ (out_head _ _ _ HG u c h Hu Hh)).
  intros Hq z Ez. apply elem_of_list_fmap in Hq as (z' & -> & _). injection Ez as _ Ez _. by apply paths_differ in Ez.
Qed.
Lemma aside_frag s x e h : cfgs !! x = Some e -> h ∈ Gs -> the_frag e h <> o -> aside s (add_trace s (sends c (the_frag e h))).
Proof using HN HG Hu.
  intros Hx Hh Hne. apply (aside_frame _ _ (sends c (the_frag e h))); [by eapply frame_sends_frag|].
  intros q. rewrite (posts_sends c _ _ _ (out_frag _ _ _ HG u c x e h Hu Hx Hh)).
  intros Hq z Ez. apply elem_of_list_fmap in Hq as (z' & -> & _). by injection Ez as _ _ Ez.
Qed.

Lemma x_tail h s : h ∈ Gs -> cheap (w (SignLater h)) (tail_head c h) s.
Proof using HN HG Hu Hv Hg H_aside.
  intros Hh.
  assert (forall s, cheap (w (SignLater h)) (send_to_gossipers c h >>> send_to_monitor c h >>> pfork (SignLater h)) s) as H.
  { clear s. intros s. unfold send_to_gossipers, send_to_monitor, pfork. cbn [pbind pmodify].
    apply (x_aside _ (λ s, add_trace s (sends c h))); [intros; by apply aside_head|]. intros s1.
    apply (x_aside _ (λ s, add_trace s [ToMonitor (gc_owner c) h])); [intros; by apply aside_quiet|]. intros s2.
    cbn. exists 0. split; [lia|done]. }
  unfold tail_head, note_init_convergence. cbn [pbind pread]. apply x_read. intros s1 _ _ _.
  destruct (is_init_convergent c s1); cbn [pwhen pbind pmodify pskip negb]; [|apply H].
  apply (x_aside _ (λ s, set_conv_init s (k_second s))); [intros; apply aside_conv_init|]. intros s2. apply H.
Qed.

Lemma x_init rec h s : h ∈ Gs -> cheap 0 (handle_body c rec h) s.
Proof using HN HG Hu Hv Hg H_aside H_head.
  intros Hh. apply (init_steps cfgs T p Gs HN HG u c Hu rec h (λ q s, cheap 0 q s)); [done|intros; by apply x_read|done|].
  clear s. intros k s G0 J0 Kt Kf s1 R1 [G1 J1] G2 R2. unfold insert_unless_dup in *.
  destruct (is_duplicate s1 h) eqn:Hd; cbn [fst snd] in *.
  - rewrite Kf. exists 0. split; [lia|done].
  - rewrite Kt. fold (inserted s1 (OInit (fm h)) h) in *.
    assert (get_tbl s1 (OInit (fm h)) !! get_id h = None) as El.
    { destruct (get_tbl s1 (OInit (fm h)) !! get_id h) as [x|] eqn:El; [|done]. pose proof (head_dup cfgs T p Gs HG c s1 h x Hh G1 J1 El) as ->.
      assert (is_duplicate s1 h = true) by (by eapply head_is_dup). congruence. }
    destruct (insert_effect cfgs T p Gs HG c s1 h Hh J1 El) as (A1 & A2 & A3 & A4 & A5 & A6 & A7).
    exists (w (SignLater h)). split; [|by apply x_tail].
    pose proof (H_head s1 (inserted s1 (OInit (fm h)) h) h Hh) as Hx. feed specialize Hx; [|done|unfold copies; by rewrite A4| |lia].
    + unfold holds. by rewrite El.
    + unfold inserted. autorewrite with gst. rewrite posts_app. cbn. by rewrite app_nil_r.
Qed.

Lemma x_tail_full s : cheap 0 (tail_full c) s.
Proof using H_aside.
  unfold tail_full. cbn [pbind pread]. apply x_read. intros s1 _ _ _. destruct (is_convergent c s1); cbn [pwhen pmodify pskip]; [|done].
  apply (x_aside _ (λ s, set_conv s (k_second s))); [intros; apply aside_conv|done].
Qed.

Lemma x_full rec h x s : h ∈ Gs -> okfull h x -> cheap 0 (handle_body c rec x) s.
Proof using HG H_aside.
  intros Hh Hx. apply (full_steps cfgs T p Gs c rec h x (λ q s, cheap 0 q s)); [done|done|intros; by apply x_read|done|intros; apply x_tail_full|].
  clear s. intros k s Hk s1 R1 [G1 J1] G2 R2. cbn [fst snd] in *. destruct (insert_full_effect cfgs T p Gs HG c s1 h x Hh Hx J1) as (A1 & A2 & A3 & A4 & A5 & A6 & A7 & A8).
  rewrite Hk. exists 0. split.
  - destruct (H_aside s1 (inserted s1 (OFull (fm h)) x)); [|lia]. split; [apply A3|]. split; [unfold copies; by rewrite A4|]. exists [EvStored x].
    split; [unfold inserted; by autorewrite with gst|]. by intros ? ?%elem_of_nil.
  - unfold send_to_monitor. cbn [pbind pmodify].
    apply (x_aside _ (λ s, add_trace s [ToMonitor (gc_owner c) x])); [intros; by apply aside_quiet|]. intros; apply x_tail_full.
Qed.

Lemma x_build rec x e h s : (forall x, exists r, rec x = handle_body c r x) -> cfgs !! x = Some e -> h ∈ Gs -> T <= length (bucket s h) ->
  cheap 0 (build c rec (fm h) (the_frag e h)) s.
Proof using HN HG Hagg Hperm Hdeser Hu H_aside.
  intros Hr Hx Hh HT. apply (build_steps cfgs T p Gs HN HG Hagg Hperm Hdeser u c Hu rec x e h (λ q s, cheap 0 q s)); auto; [intros; by apply x_read|].
  clear s HT. intros y k s Hy Hk. apply (x_aside _ (λ s, add_trace s [EvFull y])); [intros; by apply aside_quiet|].
  intros s1. rewrite Hk. destruct (Hr y) as [r ->]. by apply (x_full r h).
Qed.

(** Any fragment. *)
Lemma x_frag rec x e h s : (forall x, exists r, rec x = handle_body c r x) -> cfgs !! x = Some e -> h ∈ Gs ->
  cheap (if decide (the_frag e h = o) then ca else 0) (handle_body c rec (the_frag e h)) s.
Proof using HN HG Hagg Hperm Hdeser Hu Hv Hg H_aside H_relay H_added.
  clear H_timer H_head. intros Hr Hx Hh. apply (frag_steps cfgs T p Gs HN HG Hdeser u c Hu rec x e h (λ q s, cheap (if decide (the_frag e h = o) then ca else 0) q s)); [done|done|intros; by apply x_read|done|].
  clear s. intros k s Hk s1 R1 [G1 J1]. destruct (frag_fields _ p _ HG e h Hh) as (Fk & Fi & Fp & _).
  destruct (Nat.lt_ge_cases (length (bucket s1 h)) T) as [Hl|Hl].
  - rewrite (rs_lt cfgs T HN u c Hu) by (by rewrite Fi). cbn [fst snd]. intros G2 R2. rewrite Fi. fold (NetworkNode.bucket p s1 h).
    destruct (added_effect cfgs T p Gs HG c s1 x e h Hx Hh J1 Hl) as (A1 & A2 & A3 & A4 & A5 & A6 & A7 & A8). set (s' := added s1 (fm h) (the_frag e h)) in *.
    set (b := length (bucket s1 h)) in *. rewrite Hk. unfold rest. destruct (Nat.ltb_spec b T) as [_|]; [|lia].
    assert (length (bucket s' h) = S b) as Hb by (rewrite A4, app_length; cbn [length]; unfold b; lia).
    assert (cheap 0 (if Nat.eqb (S b) T then build c rec (fm h) (the_frag e h) else pskip) s') as Gb.
    { destruct (Nat.eqb_spec (S b) T) as [E|E]; [|done]. apply (x_build _ x); auto. lia. }
    assert (posts (t_trace s') = posts (t_trace s1)) as Ep.
    { unfold s', added. autorewrite with gst. rewrite posts_app. cbn. by rewrite app_nil_r. }
    destruct (decide (the_frag e h = o)) as [Eo|Eo].
    + assert (h = g) as ->.
      { destruct (frag_fields cfgs p Gs HG d g Hg) as (F1 & _ & F2 & _). rewrite Eo in Fk, Fp. apply (same_id cfgs p Gs HG); auto; congruence. }
      exists (0 + cr). split.
      * assert (copies s' = S (copies s1)) as Ec.
        { unfold copies. rewrite A4, Eo, filter_app, app_length, filter_cons_True by done. cbn. lia. }
        pose proof (H_added s1 s' (A3 g) Ec Ep). lia.
      * apply cheap_seq; [exact Gb|]. intros _ s2. cbn [pwhen send_to_gossipers pmodify]. rewrite Eo. intros s3 _ _ _ _. cbn [fst snd].
        exists 0. split; [|done]. rewrite Nat.add_0_r. exact (H_relay s3).
    + exists (0 + 0). split.
      * destruct (H_aside s1 s') as [E1 E2]; [|lia]. split; [apply A3|]. split.
        -- unfold copies. destruct (decide (g = h)) as [->|Hne]; [|by rewrite A5].
           rewrite A4, filter_app, app_length, filter_cons_False by done. cbn. lia.
        -- eexists. unfold s', added. autorewrite with gst. split; [done|]. by intros ? ?%elem_of_nil.
      * apply cheap_seq; [exact Gb|]. intros _ s2. cbn [pwhen send_to_gossipers pmodify].
        apply (x_aside _ (λ s, add_trace s (sends c (the_frag e h)))); [intros; by eapply aside_frag|done].
  - rewrite (rs_ge cfgs T HN u c Hu) by (by rewrite Fi). cbn [fst snd]. intros G2 R2. rewrite Fi in *. fold (NetworkNode.bucket p s1 h) in *.
    set (b := length (bucket s1 h)) in *. rewrite Hk. unfold rest. destruct (Nat.ltb_spec b T) as [|_]; [lia|].
    destruct (Nat.eqb_spec (S b) T) as [E|_]; [lia|]. exists 0. split; [|done].
    destruct (H_aside s1 (add_trace s1 [EvBefore (frag_id p h) b])) as [E1 E2]; [by apply aside_quiet|lia].
Qed.

(** The fragment, when it is there already. *)
Lemma x_dup rec s : o ∈ bucket s g -> cheap 0 (handle_body c rec o) s.
Proof using HG Hg.
  intros Ho. rewrite (body_frag cfgs p Gs HG) by done. cbn [pbind pread]. apply x_read. intros s1 R1 _ _.
  assert (is_duplicate s1 o = true) as ->; [|done]. destruct (frag_fields _ p _ HG d g Hg) as (Fk & Fi & _).
  unfold is_duplicate. rewrite Fk, Fi. fold (NetworkNode.bucket p s1 g). apply existsb_exists. exists o. split.
  - apply elem_of_list_In. by apply (gr_frag _ _ _ _ R1).
  - unfold same_sig. by rewrite !bool_decide_eq_true_2.
Qed.

(** A timer. *)
Lemma x_timer h s : h ∈ Gs -> cheap (w (SignLater h)) (start_task c (SignLater h)) s.
Proof using All.
  intros Hh. unfold start_task. cbn [pbind pread]. apply x_read. intros s1 _ G1 J1. rewrite (not_black cfgs T p Gs) by done.
  unfold generate_frag. rewrite (signs cfgs T Gs HN u c Hu) by done. cbn [pbind pmodify]. change (frag_of c h (sigfrag_string (the_sig c h))) with (the_frag c h).
  apply (x_aside _ (λ s, add_trace s [EvSigned h (the_frag c h)])); [intros; by apply aside_quiet|]. intros s2.
  eapply cheap_more; [|apply (x_frag _ u); auto; apply rec_body]. destruct (decide _) as [E|]; [|lia]. by apply H_timer.
Qed.
End generic.

(** ** Posts of the fragment to one gossiper *)
Definition sent (z : string) (l : list post) : nat := length (filter (λ q, q = frag_post z g o) l).
Definition room (z : string) (s : gst) : nat := if decide (z ∈ gc_neighbours c) then copies s else 0.
Definition cheap_posts (z : string) {A} (n : nat) : gprog A -> gst -> Prop :=
  cheap (λ s, GI c s /\ J s) grows (room z) (λ s, sent z (posts (t_trace s))) (λ _, 0) n.
Definition few_posts (z : string) : nat -> gpool -> Prop :=
  within (λ s, GI c s /\ J s) grows (room z) (λ s, sent z (posts (t_trace s))) (λ _, 0).

Lemma sent_app z l l' : sent z (l ++ l')%list = sent z l + sent z l'.
Proof using. unfold sent. by rewrite filter_app, app_length. Qed.
Lemma sent_none z l : (forall q, q ∈ l -> q <> frag_post z g o) -> sent z l = 0.
Proof using.
  unfold sent. induction l as [|q l IH]; intros H; [done|]. rewrite filter_cons_False; [|apply H; by left]. apply IH. intros q' Hq. apply H. by right.
Qed.
Lemma sent_some z l : frag_post z g o ∈ l -> 0 < sent z l.
Proof using.
  intros H. unfold sent. assert (frag_post z g o ∈ filter (λ q, q = frag_post z g o) l) as Hf by (by apply elem_of_list_filter).
  destruct (filter _ l); [by apply elem_of_nil in Hf|cbn; lia].
Qed.
Lemma copies_some s : o ∈ bucket s g -> 0 < copies s.
Proof using.
  intros H. unfold copies. assert (o ∈ filter (λ q, q = o) (bucket s g)) as Hf by (by apply elem_of_list_filter).
  destruct (filter _ (bucket s g)); [by apply elem_of_nil in Hf|cbn; lia].
Qed.
Lemma copies_none s : o ∉ bucket s g -> copies s = 0.
Proof using.
  unfold copies. induction (bucket s g) as [|q l IH]; intros H; [done|]. rewrite filter_cons_False.
  - apply IH. intros Hin. apply H. by right.
  - intros ->. apply H. by left.
Qed.
Lemma sent_sends z (l : list string) : NoDup l -> sent z (map (λ x, frag_post x g o) l) = if decide (z ∈ l) then 1 else 0.
Proof using.
  induction 1 as [|x l Hx Hl IH]; [by rewrite decide_False by apply not_elem_of_nil|]. cbn [map]. change (?a :: ?b) with ([a] ++ b)%list. rewrite sent_app, IH. unfold sent at 1.
  destruct (decide (z = x)) as [->|Hn].
  - rewrite filter_cons_True by done. cbn [filter list_filter length]. rewrite decide_False by done. rewrite decide_True by (by left). done.
  - rewrite filter_cons_False by (intros [=]; congruence). cbn [filter list_filter length Nat.add].
    destruct (decide (z ∈ l)) as [Hz|Hz]; [by rewrite decide_True by (by right)|]. rewrite decide_False; [done|]. by intros [?|?]%elem_of_cons.
Qed.
Lemma copies_trace s l : copies (add_trace s l) = copies s.
Proof using. unfold copies, NetworkNode.bucket, get_object_list. by autorewrite with gst. Qed.
Lemma room_same z s s' : copies s' = copies s -> room z s' = room z s.
Proof using. intros E. unfold room. by rewrite E. Qed.

Section sending.
Context (z : string) (Hnb : NoDup (gc_neighbours c)).
Lemma pp_aside s s' : aside s s' -> sent z (posts (t_trace s')) = sent z (posts (t_trace s)) /\ room z s' = room z s.
Proof using. intros (_ & E & l & Et & Hl). split; [|by apply room_same]. rewrite Et, posts_app, sent_app, (sent_none z (posts l)); [lia|]. auto. Qed.
Lemma pp_relay s : sent z (posts (t_trace (add_trace s (sends c o)))) + room z s <=
  sent z (posts (t_trace s)) + (if decide (z ∈ gc_neighbours c) then 1 else 0) + room z (add_trace s (sends c o)).
Proof using HG Hu Hv Hg Hnb.
  assert (copies (add_trace s (sends c o)) = copies s) as Ec by apply copies_trace. rewrite (room_same _ _ _ Ec). autorewrite with gst. rewrite posts_app, sent_app.
  rewrite (posts_sends c _ _ _ (out_frag _ _ _ HG u c v d g Hu Hv Hg)). change (map _ _) with (map (λ x, frag_post x g o) (gc_neighbours c)).
  rewrite sent_sends by done. lia.
Qed.
Lemma pp_head s s' h : h ∈ Gs -> ~ holds s h -> (forall h', h' ∈ Gs -> holds s' h' <-> holds s h' \/ h' = h) -> copies s' = copies s ->
  posts (t_trace s') = posts (t_trace s) -> sent z (posts (t_trace s')) + 0 + room z s <= sent z (posts (t_trace s)) + room z s'.
Proof using. intros _ _ _ E ->. rewrite (room_same _ _ _ E). lia. Qed.
Lemma pp_added s s' : (holds s' g <-> holds s g) -> copies s' = S (copies s) ->
  posts (t_trace s') = posts (t_trace s) -> sent z (posts (t_trace s')) + (if decide (z ∈ gc_neighbours c) then 1 else 0) + room z s <= sent z (posts (t_trace s)) + 0 + room z s'.
Proof using. intros _ E ->. unfold room. destruct (decide _); lia. Qed.

Lemma posts_init h s : h ∈ Gs -> cheap_posts z 0 (handle c h) s.
Proof using HN HG Hu Hv Hg. intros Hh. by apply (x_init _ _ _ pp_aside pp_head). Qed.
Lemma posts_frag x e h s : cfgs !! x = Some e -> h ∈ Gs -> cheap_posts z 0 (handle c (the_frag e h)) s.
Proof using All.
  intros Hx Hh. eapply cheap_more; [|apply (x_frag _ _ _ _ _ pp_aside pp_relay pp_added _ x); auto; intros; by eexists]. by destruct (decide _).
Qed.
Lemma posts_timer t s : tok Gs t -> cheap_posts z 0 (start_task c t) s.
Proof using All. destruct t as [h]. intros Hh. apply (x_timer _ _ (λ _, 0) _ _ pp_aside pp_relay pp_head pp_added); auto. Qed.
End sending.

(** ** Copies of the fragment *)
Definition signer (s : gst) : nat := if decide (the_frag c g = o /\ holds s g) then 1 else 0.
Definition price (t : gtask) : nat := match t with SignLater h => if decide (the_frag c h = o) then 1 else 0 end.
Definition cheap_copies {A} (n : nat) : gprog A -> gst -> Prop :=
  cheap (λ s, GI c s /\ J s) grows signer copies price n.
Definition few_copies : nat -> gpool -> Prop := within (λ s, GI c s /\ J s) grows signer copies price.

Lemma frag_same x e h : cfgs !! x = Some e -> h ∈ Gs -> the_frag e h = o -> h = g /\ x = v.
Proof using HN HG Hdeser Hv Hg.
  intros Hx Hh E. destruct (frag_fields cfgs p Gs HG d g Hg) as (F1 & _ & F2 & _ & _ & F3 & _). destruct (frag_fields cfgs p Gs HG e h Hh) as (F1' & _ & F2' & _ & _ & F3' & _).
  rewrite E in F1', F2', F3'. split; [apply (same_id cfgs p Gs HG); auto; congruence|].
  eapply (sig_inj cfgs T HN Hdeser x e v d h g); auto. congruence.
Qed.
Lemma signer_same s s' : (holds s' g <-> holds s g) -> signer s' = signer s.
Proof using. intros E. unfold signer. by rewrite (decide_ext (the_frag c g = o /\ holds s' g) (the_frag c g = o /\ holds s g)) by tauto. Qed.
Lemma qq_aside s s' : aside s s' -> copies s' = copies s /\ signer s' = signer s.
Proof using. intros (E1 & E2 & _). split; [done|]. by apply signer_same. Qed.
Lemma qq_relay s : copies (add_trace s (sends c o)) + signer s <= copies s + 0 + signer (add_trace s (sends c o)).
Proof using. rewrite copies_trace, (signer_same s (add_trace s _)); [lia|]. unfold holds. by autorewrite with gst. Qed.
Lemma qq_head s s' h : h ∈ Gs -> ~ holds s h -> (forall h', h' ∈ Gs -> holds s' h' <-> holds s h' \/ h' = h) -> copies s' = copies s ->
  posts (t_trace s') = posts (t_trace s) -> copies s' + price (SignLater h) + signer s <= copies s + signer s'.
Proof using HN HG Hdeser Hu Hv Hg.
  intros Hh Hn Hall E _. rewrite E. unfold price, signer. destruct (decide (the_frag c h = o)) as [Eo|Eo].
  - destruct (frag_same u c h Hu Hh Eo) as [-> _]. rewrite (decide_False (P := _ /\ holds s g)) by tauto. rewrite decide_True; [lia|]. split; [done|]. apply Hall; auto.
  - destruct (decide (_ /\ holds s g)) as [[A1 A2]|]; [|lia]. rewrite decide_True; [lia|]. split; [done|]. apply Hall; auto.
Qed.
Lemma qq_added s s' : (holds s' g <-> holds s g) -> copies s' = S (copies s) ->
  posts (t_trace s') = posts (t_trace s) -> copies s' + 0 + signer s <= copies s + 1 + signer s'.
Proof using. intros E1 E2 _. rewrite (signer_same _ _ E1). lia. Qed.

Lemma copies_init h s : h ∈ Gs -> cheap_copies 0 (handle c h) s.
Proof using HN HG Hu Hv Hg Hdeser. intros Hh. by apply (x_init _ _ _ qq_aside qq_head). Qed.
Lemma copies_frag x e h s : cfgs !! x = Some e -> h ∈ Gs -> cheap_copies (if decide (the_frag e h = o) then 1 else 0) (handle c (the_frag e h)) s.
Proof using All. intros Hx Hh. apply (x_frag _ _ _ _ _ qq_aside qq_relay qq_added _ x); auto. intros; by eexists. Qed.
Lemma copies_dup s : o ∈ bucket s g -> cheap_copies 0 (handle c o) s.
Proof using HG Hg. apply x_dup. Qed.
Lemma copies_timer t s : tok Gs t -> cheap_copies (price t) (start_task c t) s.
Proof using All.
  destruct t as [h]. intros Hh. apply (x_timer _ _ price _ _ qq_aside qq_relay qq_head qq_added); auto. intros h' Hh' E. cbn. by rewrite decide_True.
Qed.
End node.
