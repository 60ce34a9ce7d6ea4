(** One gossiper of an honest network with overlapping handlers. *)
From Verif Require Import Bytes Hex Json Types Crypto Verify Prog Gossiper Network Overlap SpecCodec SpecVerify SpecGossiper SpecNetwork ProgFacts Duty GstFacts CodecFacts CryptoFacts VerifyFacts GWalk GossiperInv GossiperSeq GossiperEvidence GossiperStep GossiperFrag GossiperMore NetworkNode NetworkFacts.
From Coq Require Import Lia.
Open Scope string_scope.

Lemma sumf_le {A} (f g : A -> nat) l : (forall x, x ∈ l -> f x <= g x) -> sumf f l <= sumf g l.
Proof.
  induction l as [|a l IH]; intros H; cbn; [lia|]. assert (f a <= g a) by (apply H; by left).
  assert (sumf f l <= sumf g l) by (apply IH; intros; apply H; by right). lia.
Qed.
Lemma sumf_lt {A} (f g : A -> nat) l x k : x ∈ l -> (forall y, y ∈ l -> f y <= g y) -> f x + k <= g x -> sumf f l + k <= sumf g l.
Proof.
  induction l as [|a l IH]; intros Hx H Hk; [by apply elem_of_nil in Hx|]. cbn. apply elem_of_cons in Hx as [->|Hx].
  - assert (sumf f l <= sumf g l) by (apply sumf_le; intros; apply H; by right). lia.
  - assert (f a <= g a) by (apply H; by left). assert (sumf f l + k <= sumf g l) by (apply IH; auto; intros; apply H; by right). lia.
Qed.

Section node.
Context {P : prims} (cfgs : gmap string (gconf P)) (T : nat) (p : string) (Gs : list gobj).
Context (HN : honest_network cfgs T) (HG : valid_statements cfgs p Gs).
Context (Hagg : agg_correct P) (Hperm : fast_perm P) (Hdeser : forall sg : bls_sig P, bls_deser (bls_ser sg) = Some sg).
Context (u : string) (c : gconf P) (Hu : cfgs !! u = Some c).

Notation bucket := (bucket p).
Notation frag_id := (frag_id p).
Notation full_id := (full_id p).

(** What the gossipers report to their monitors: the statements, and aggregates of them. *)
Definition sound (x : gobj) : Prop := x ∈ Gs \/ exists g, g ∈ Gs /\ obj_kind x = KObj (OFull (fm g)) /\ get_id x = full_id g /\ g_p1 x = g_p1 g /\ g_p2 x = g_p2 g /\
  exists w e, cfgs !! w = Some e /\ verify (gc_crypto e) x = Accept.

Record J (s : gst) : Prop := mkJ {
  j_black : t_black s = ∅;
  j_period : k_period s = p;
  j_init : forall f i o, f <> Acc -> get_tbl s (OInit f) !! i = Some o -> o ∈ Gs;
  j_frag : forall g o, g ∈ Gs -> o ∈ bucket s g -> exists v d, cfgs !! v = Some d /\ o = the_frag d g;
  j_posts : forall q, q ∈ posts (t_trace s) -> good_post cfgs Gs q;
  j_full : forall g x, g ∈ Gs -> fulls s g !! full_id g = Some x -> 
    g_p1 x = g_p1 g /\ g_p2 x = g_p2 g /\ length (g_signers x) = T /\ (forall w, w ∈ g_signers x -> is_Some (cfgs !! w));
  j_mon : forall v x, ToMonitor v x ∈ t_trace s -> sound x
}.

Record grows (s s' : gst) : Prop := mkgrows {
  gr_trace : t_trace s `prefix_of` t_trace s';
  gr_holds : forall g, g ∈ Gs -> holds s g -> holds s' g;
  gr_frag : forall g o, g ∈ Gs -> o ∈ bucket s g -> o ∈ bucket s' g;
  gr_len : forall g, g ∈ Gs -> length (bucket s g) <= length (bucket s' g);
  gr_full : forall g, g ∈ Gs -> is_Some (fulls s g !! full_id g) -> is_Some (fulls s' g !! full_id g)
}.
Global Instance grows_pre : PreOrder grows.
Proof using.
  split.
  - intros s. split; auto.
  - intros s1 s2 s3 [A1 A2 A3 A4 A5] [B1 B2 B3 B4 B5]. split.
    + by transitivity (t_trace s2).
    + intros g Hg H. by apply B2, A2.
    + intros g o Hg H. by apply B3, A3.
    + intros g Hg. etransitivity; [by apply A4|by apply B4].
    + intros g Hg H. by apply B5, A5.
Qed.

Lemma grows_in s s' e : grows s s' -> e ∈ t_trace s -> e ∈ t_trace s'.
Proof using. intros [[l E] _ _ _ _] He. rewrite E. apply elem_of_app. by left. Qed.

Local Instance holds_decision s g : Decision (holds s g).
Proof using. unfold holds. apply _. Defined.

Definition nb : nat := length (gc_neighbours c).
Definition spent (s : gst) : nat := length (posts (t_trace s)).
Definition weight (s : gst) (g : gobj) : nat := (if decide (holds s g) then S nb else 0) + nb * length (bucket s g).
Definition budget (s : gst) : nat := sumf (weight s) Gs.

(** ** Duties *)
Definition got (s : gst) (g o : gobj) : Prop := o ∈ bucket s g \/ T <= length (bucket s g).
Definition d_own (g : gobj) : duty gst gtask := mkduty (λ s, holds s g) (λ s, got s g (the_frag c g)) (λ t, t = SignLater g).
Definition d_send (g : gobj) (v : string) : duty gst gtask :=
  mkduty (λ s, holds s g) (λ s, ToGossiper v (init_path g) (MObj g) ∈ t_trace s) (λ _, False).
Definition d_mon (g : gobj) : duty gst gtask := mkduty (λ s, holds s g) (λ s, ToMonitor (gc_owner c) g ∈ t_trace s) (λ _, False).
Definition d_relay (g o : gobj) (v : string) : duty gst gtask :=
  mkduty (λ s, o ∈ bucket s g) (λ s, ToGossiper v (frag_path g) (MObj o) ∈ t_trace s) (λ _, False).
Definition d_full (g : gobj) : duty gst gtask := mkduty (λ s, T <= length (bucket s g)) (λ s, is_Some (fulls s g !! full_id g)) (λ _, False).
Definition d_fmon (g x : gobj) : duty gst gtask :=
  mkduty (λ s, fulls s g !! full_id g = Some x) (λ s, ToMonitor (gc_owner c) x ∈ t_trace s) (λ _, False).
(** Of a handler that has just been started. *)
Definition d_head (g : gobj) : duty gst gtask := mkduty (λ _, False) (λ s, holds s g) (λ _, False).
Definition d_got (g o : gobj) : duty gst gtask := mkduty (λ _, False) (λ s, got s g o) (λ _, False).

Inductive due : duty gst gtask -> Prop :=
| due_own g : g ∈ Gs -> due (d_own g)
| due_send g v : g ∈ Gs -> v ∈ gc_neighbours c -> due (d_send g v)
| due_mon g : g ∈ Gs -> due (d_mon g)
| due_relay g o v : g ∈ Gs -> v ∈ gc_neighbours c -> due (d_relay g o v)
| due_full g : g ∈ Gs -> due (d_full g)
| due_fmon g x : g ∈ Gs -> due (d_fmon g x).

Lemma got_lasts s s' g o : g ∈ Gs -> grows s s' -> got s g o -> got s' g o.
Proof using. intros Hg HR [H|H]; [left; by eapply gr_frag|right]. pose proof (gr_len _ _ HR g Hg). lia. Qed.

Lemma due_lasting d : due d -> lasting grows d.
Proof using.
  intros Hd s s' HR. destruct Hd; cbn [du_done d_own d_send d_mon d_relay d_full d_fmon]; try by apply grows_in.
  - by apply got_lasts.
  - by apply (gr_full _ _ HR).
Qed.
Lemma head_lasting g : g ∈ Gs -> lasting grows (d_head g).
Proof using. intros Hg s s' HR. cbn. by apply (gr_holds _ _ HR). Qed.
Lemma got_lasting g o : g ∈ Gs -> lasting grows (d_got g o).
Proof using. intros Hg s s' HR. cbn. by apply got_lasts. Qed.

Notation pays := (pays (GI c) J grows).
Definition tok (t : gtask) : Prop := match t with SignLater g => g ∈ Gs end.
Notation Good := (Duty.good (GI c) J grows tok due budget spent 1).

Lemma g_read {A X} n (f : gst -> X) (k : X -> gprog A) s :
  (forall s1, grows s s1 -> GI c s1 -> J s1 -> Good n (k (f s1)) s1) -> Good n (Act (λ s, (s, f s)) k) s.
Proof using. intros H. by apply good_read; [apply _|]. Qed.
Lemma p_read {A X} d (f : gst -> X) (k : X -> gprog A) s :
  (forall s1, grows s s1 -> GI c s1 -> J s1 -> pays d (k (f s1)) s1) -> pays d (Act (λ s, (s, f s)) k) s.
Proof using. intros H. by apply pays_read. Qed.

(** ** Steps that only write to the trace, or to fields that do not matter *)
Record frame (s s' : gst) (l : list gevt) : Prop := mkframe {
  fr_tbl : forall k, get_tbl s' k = get_tbl s k;
  fr_frags : forall f, get_frags s' f = get_frags s f;
  fr_black : t_black s' = t_black s;
  fr_period : k_period s' = k_period s;
  fr_trace : t_trace s' = (t_trace s ++ l)%list;
  fr_posts : forall q, q ∈ posts l -> good_post cfgs Gs q;
  fr_mon : forall v x, ToMonitor v x ∈ l -> sound x
}.

Lemma frame_bucket s s' l g : frame s s' l -> bucket s' g = bucket s g.
Proof using. intros [_ E _ _ _ _ _]. unfold NetworkNode.bucket, get_object_list. by rewrite E. Qed.
Lemma frame_holds s s' l g : frame s s' l -> holds s' g <-> holds s g.
Proof using. intros [E _ _ _ _ _ _]. unfold holds. by rewrite E. Qed.
Lemma frame_fulls s s' l g : frame s s' l -> fulls s' g = fulls s g.
Proof using. intros [E _ _ _ _ _ _]. unfold fulls. by rewrite E. Qed.

Lemma frame_J s s' l : frame s s' l -> J s -> J s'.
Proof using.
  intros F [A1 A2 A3 A4 A6 A5 A0]. pose proof F as [E1 E2 E3 E4 E5 E6 E7]. split.
  - by rewrite E3.
  - by rewrite E4.
  - intros f i o. rewrite E1. apply A3.
  - intros g o. rewrite (frame_bucket _ _ _ _ F). apply A4.
  - intros q. rewrite E5, posts_app, elem_of_app. intros [Hq|Hq]; auto.
  - intros g x. rewrite (frame_fulls _ _ _ _ F). apply A5.
  - intros v x. rewrite E5, elem_of_app. intros [Hx|Hx]; eauto.
Qed.

Lemma frame_grows s s' l : frame s s' l -> grows s s'.
Proof using.
  intros F. pose proof F as [E1 E2 E3 E4 E5 E6 E7]. split.
  - rewrite E5. by apply prefix_app_r.
  - intros g Hg. by rewrite (frame_holds _ _ _ _ F).
  - intros g o Hg. by rewrite (frame_bucket _ _ _ _ F).
  - intros g Hg. by rewrite (frame_bucket _ _ _ _ F).
  - intros g Hg. by rewrite (frame_fulls _ _ _ _ F).
Qed.

Lemma frame_budget s s' l : frame s s' l -> budget s' = budget s.
Proof using.
  intros F. apply sumf_ext. intros g _. unfold weight. rewrite (frame_bucket _ _ _ _ F). f_equal.
  destruct (decide (holds s' g)) as [H|H], (decide (holds s g)) as [H'|H']; auto; by apply (frame_holds _ _ _ _ F) in H' || apply (frame_holds _ _ _ _ F) in H.
Qed.

Lemma frame_spent s s' l : frame s s' l -> spent s' = spent s + length (posts l).
Proof using. intros [_ _ _ _ E _ _]. unfold spent. by rewrite E, posts_app, app_length. Qed.

Lemma frame_when s s' l d : frame s s' l -> due d -> du_when d s' -> du_when d s.
Proof using.
  intros F Hd. destruct Hd; cbn [du_when d_own d_send d_mon d_relay d_full d_fmon]; try by apply (frame_holds _ _ _ _ F).
  - by rewrite (frame_bucket _ _ _ _ F).
  - by rewrite (frame_bucket _ _ _ _ F).
  - by rewrite (frame_fulls _ _ _ _ F).
Qed.

Lemma good_frame {A} n m (F : gst -> gst) (k : unit -> gprog A) s (l : gst -> list gevt) :
  (forall s1, frame s1 (F s1) (l s1) /\ length (posts (l s1)) + m <= n) ->
  (forall s1, grows s s1 -> GI c s1 -> J s1 -> GI c (F s1) -> J (F s1) -> frame s1 (F s1) (l s1) -> Good m (k tt) (F s1)) ->
  Good n (Act (λ s, (F s, tt)) k) s.
Proof using.
  intros HF Hk s1 R1 G1 J1 G2. cbn [fst snd] in *. destruct (HF s1) as [Fr Hm].
  pose proof (frame_J _ _ _ Fr J1) as J2. split_and!; [done|by eapply frame_grows| |].
  - intros d Hd Hw. left. by eapply frame_when.
  - exists m. split; [|by apply Hk]. rewrite (frame_spent _ _ _ Fr), (frame_budget _ _ _ Fr). lia.
Qed.

Lemma frame_add s l : (forall q, q ∈ posts l -> good_post cfgs Gs q) -> (forall v x, ToMonitor v x ∈ l -> sound x) -> frame s (add_trace s l) l.
Proof using. intros H H'. split; intros; autorewrite with gst; eauto. Qed.
Lemma frame_quiet s e : (forall v ep m, e <> ToGossiper v ep m) -> (forall v x, e = ToMonitor v x -> sound x) -> frame s (add_trace s [e]) [e].
Proof using.
  intros H H'. apply frame_add; [|intros v x Hx; apply elem_of_list_singleton in Hx; by eapply H'].
  destruct e; cbn; try by (intros ? ?%elem_of_nil). by destruct (H url endpoint m).
Qed.
Lemma sends_quiet v x g : ToMonitor v x ∉ sends c g.
Proof using. intros Hx. apply elem_of_list_fmap in Hx as (? & ? & _). done. Qed.
Lemma frame_conv_init s x : frame s (set_conv_init s x) [].
Proof using. split; intros; autorewrite with gst; auto; [by rewrite app_nil_r|by apply elem_of_nil in H..]. Qed.
Lemma frame_conv s x : frame s (set_conv s x) [].
Proof using. split; intros; autorewrite with gst; auto; [by rewrite app_nil_r|by apply elem_of_nil in H..]. Qed.
Lemma neighbour_known v : v ∈ gc_neighbours c -> is_Some (cfgs !! v).
Proof using HN Hu. intros Hv. by apply (hn_connected _ _ HN u c Hu). Qed.
Lemma frame_sends_head s g : g ∈ Gs -> frame s (add_trace s (sends c g)) (sends c g).
Proof using HN HG Hu.
  intros Hg. apply frame_add; [|intros v x Hx; by apply sends_quiet in Hx]. intros q. rewrite (posts_sends c g _ _ (out_head _ _ _ HG u c g Hu Hg)). intros Hq.
  apply elem_of_list_fmap in Hq as (v & -> & Hv). split; [by apply neighbour_known|]. exists g. split; [done|]. by left.
Qed.
Lemma frame_sends_frag s v d g : cfgs !! v = Some d -> g ∈ Gs -> frame s (add_trace s (sends c (the_frag d g))) (sends c (the_frag d g)).
Proof using HN HG Hu.
  intros Hv Hg. apply frame_add; [|intros w x Hx; by apply sends_quiet in Hx]. intros q. rewrite (posts_sends c _ _ _ (out_frag _ _ _ HG u c v d g Hu Hv Hg)). intros Hq.
  apply elem_of_list_fmap in Hq as (w & -> & Hw). split; [by apply neighbour_known|]. exists g. split; [done|]. right. by exists v, d.
Qed.

(** ** A statement arrives *)
Lemma spent_same s s' : posts (t_trace s') = posts (t_trace s) -> spent s' = spent s.
Proof using. intros E. unfold spent. by rewrite E. Qed.

Lemma insert_effect s g : g ∈ Gs -> J s -> get_tbl s (OInit (fm g)) !! get_id g = None -> let s' := inserted s (OInit (fm g)) g in
  J s' /\ grows s s' /\ (forall h, h ∈ Gs -> holds s' h <-> holds s h \/ h = g) /\ (forall h, bucket s' h = bucket s h) /\
  (forall h, fulls s' h = fulls s h) /\ spent s' = spent s /\ budget s + S nb <= budget s'.
Proof using HG.
  intros Hg [A1 A2 A3 A4 A6 A5 A0] El s'.
  assert (forall f, get_tbl s' (OInit f) = if decide (fm g = f) then <[get_id g := g]> (get_tbl s (OInit f)) else get_tbl s (OInit f)) as Ei.
  { intros f. unfold s', inserted. autorewrite with gst. rewrite get_tbl_set_tbl. destruct (decide (fm g = f)) as [<-|Hn].
    - by rewrite decide_True.
    - rewrite decide_False by congruence. done. }
  assert (forall h, fulls s' h = fulls s h) as Ef.
  { intros h. unfold fulls, s', inserted. autorewrite with gst. by rewrite get_tbl_set_tbl, decide_False. }
  assert (forall h, bucket s' h = bucket s h) as Eb.
  { intros h. unfold NetworkNode.bucket, get_object_list, s', inserted. by autorewrite with gst. }
  assert (forall h, h ∈ Gs -> holds s' h <-> holds s h \/ h = g) as Eh.
  { intros h Hh. unfold holds. rewrite Ei. destruct (decide (fm g = fm h)) as [Efm|Efm].
    - destruct (decide (get_id h = get_id g)) as [E|E].
      + assert (h = g) as -> by (eapply same_id; eauto; by injection E). rewrite lookup_insert. tauto.
      + rewrite lookup_insert_ne by done. split; [auto|]. intros [?| ->]; done.
    - split; [auto|]. intros [?| ->]; done. }
  assert (grows s s') as HR.
  { split.
    - unfold s', inserted. autorewrite with gst. by apply prefix_app_r.
    - intros h Hh H. apply Eh; auto.
    - intros h o _. by rewrite Eb.
    - intros h _. by rewrite Eb.
    - intros h _. by rewrite Ef. }
  split_and!; auto.
  - split.
    + unfold s', inserted. by autorewrite with gst.
    + unfold s', inserted. by autorewrite with gst.
    + intros f i o Hf. rewrite Ei. destruct (decide (fm g = f)); [|by apply A3]. rewrite lookup_insert_Some. intros [[_ <-]|[_ Ho]]; [done|by eapply A3].
    + intros h o. rewrite Eb. apply A4.
    + intros q. unfold s', inserted. autorewrite with gst. rewrite posts_app. cbn [posts omap list_omap]. rewrite app_nil_r. apply A6.
    + intros h x. rewrite Ef. apply A5.
    + intros v x. unfold s', inserted. autorewrite with gst. rewrite elem_of_app. intros [Hx|Hx]; [by eapply A0|]. by apply elem_of_list_singleton in Hx.
  - apply spent_same. unfold s', inserted. autorewrite with gst. rewrite posts_app. by rewrite app_nil_r.
  - unfold budget. apply (sumf_lt _ _ _ g); [done| |].
    + intros h Hh. unfold weight. rewrite Eb. apply Nat.add_le_mono_r. destruct (decide (holds s h)) as [H|H]; [|lia].
      rewrite decide_True; [done|]. apply Eh; auto.
    + unfold weight. rewrite Eb. rewrite decide_False by (unfold holds; by rewrite El). rewrite decide_True by (apply Eh; auto). lia.
Qed.

Definition tail_head (g : gobj) : gprog unit :=
  do proceed <- note_init_convergence c >>> Ret true;
  if negb proceed then pskip else send_to_gossipers c g >>> send_to_monitor c g >>> pfork (SignLater g).

Lemma sends_posts g : g ∈ Gs -> length (posts (sends c g)) = nb.
Proof using HG Hu. intros Hg. rewrite (posts_sends c g _ _ (out_head _ _ _ HG u c g Hu Hg)). unfold nb. apply map_length. Qed.

Lemma good_tail g s : g ∈ Gs -> Good (S nb) (tail_head g) s.
Proof using HN HG Hu.
  intros Hg.
  assert (forall s, Good (S nb) (send_to_gossipers c g >>> send_to_monitor c g >>> pfork (SignLater g)) s) as H.
  { clear s. intros s. unfold send_to_gossipers, send_to_monitor, pfork. cbn [pbind pmodify].
    apply (good_frame _ 1 _ _ _ (λ _, sends c g)).
    { intros s1. split; [by apply frame_sends_head|]. rewrite sends_posts by done. lia. }
    intros s1 _ _ _ _ _ _. apply (good_frame _ 1 _ _ _ (λ _, [ToMonitor (gc_owner c) g])).
    { intros s2. split; [apply frame_quiet; [done|]; intros ? ? [= _ <-]; by left|]. cbn. lia. }
    intros s2 _ _ _ _ _ _. cbn. split; [done|]. exists 0. split; [lia|done]. }
  unfold tail_head, note_init_convergence. cbn [pbind pread]. apply g_read. intros s1 _ _ _.
  destruct (is_init_convergent c s1); cbn [pwhen pbind pmodify pskip negb]; [|apply H].
  apply (good_frame _ (S nb) _ _ _ (λ _, [])).
  { intros s2. split; [apply frame_conv_init|]. cbn. lia. }
  intros s2 _ _ _ _ _ _. apply H.
Qed.

Lemma pays_tail d g s : g ∈ Gs ->
  (forall s, (pays d (send_to_gossipers c g >>> send_to_monitor c g >>> pfork (SignLater g)) s)) -> pays d (tail_head g) s.
Proof using.
  intros Hg H. unfold tail_head, note_init_convergence. cbn [pbind pread]. apply p_read. intros s1 _ _ _.
  destruct (is_init_convergent c s1); cbn [pwhen pbind pmodify pskip negb]; [|apply H].
  right. intros s2 _ _ _ _ _ _. cbn [fst snd]. apply H.
Qed.

Lemma pays_tail_own g s : g ∈ Gs -> pays (d_own g) (tail_head g) s.
Proof using.
  intros Hg. apply pays_tail; [done|]. clear s. intros s. cbn.
  right. intros s1 _ _ _ _ _ _. cbn. right. intros s2 _ _ _ _ _ _. cbn. right. by left.
Qed.

Lemma pays_tail_send g v s : g ∈ Gs -> v ∈ gc_neighbours c -> pays (d_send g v) (tail_head g) s.
Proof using HG Hu.
  intros Hg Hv. apply pays_tail; [done|]. clear s. intros s.
  right. intros s1 _ _ _ _ _ _. cbn [fst snd send_to_gossipers pbind pmodify]. apply pays_done. cbn [d_send du_done]. autorewrite with gst.
  apply elem_of_app. right. apply elem_of_list_fmap. exists v. rewrite (out_head _ _ _ HG u c g Hu Hg). done.
Qed.

Lemma pays_tail_mon g s : g ∈ Gs -> pays (d_mon g) (tail_head g) s.
Proof using.
  intros Hg. apply pays_tail; [done|]. clear s. intros s.
  unfold send_to_gossipers, send_to_monitor. cbn [pbind pmodify]. right. intros s1 _ _ _ _ _ _. cbn [fst snd].
  right. intros s2 _ _ _ _ _ _. apply pays_done. cbn [fst snd d_mon du_done]. autorewrite with gst.
  apply elem_of_app. right. by left.
Qed.

(** The statement is not refused. *)
Lemma head_dup s g o : g ∈ Gs -> GI c s -> J s -> get_tbl s (OInit (fm g)) !! get_id g = Some o -> o = g.
Proof using HG.
  intros Hg (H1 & _) HJ El. pose proof (j_init _ HJ _ _ _ (fm_acc g) El) as Ho.
  destruct (H1 _ _ _ El) as (_ & Hid & Hty). injection Hid as _ Hty' Hid. by apply (vs_one _ _ _ HG).
Qed.

Lemma head_not_malicious s g : g ∈ Gs -> GI c s -> J s -> is_malicious s g = false.
Proof using HG.
  intros Hg HI HJ. unfold is_malicious, get_object, obj_at. rewrite (head_kind _ _ _ HG g Hg).
  pose proof (fm_acc g) as Hf. destruct (vs_type _ _ _ HG g Hg) as (_ & _ & Hs).
  destruct (get_tbl s (OInit (fm g)) !! get_id g) as [o|] eqn:El.
  - pose proof (head_dup s g o Hg HI HJ El) as ->. destruct (fm g); [| |done]; rewrite El; unfold same_sig; rewrite !bool_decide_eq_true_2 by done; done.
  - destruct (fm g); [| |done]; rewrite El; by rewrite bool_decide_eq_false_2.
Qed.

Lemma head_is_dup s g : g ∈ Gs -> GI c s -> J s -> is_duplicate s g = true <-> holds s g.
Proof using HG.
  intros Hg HI HJ. unfold is_duplicate, holds. rewrite (head_kind _ _ _ HG g Hg).
  destruct (get_tbl s (OInit (fm g)) !! get_id g) as [o|] eqn:El; [|by split].
  pose proof (head_dup s g o Hg HI HJ El) as ->. unfold same_sig. by rewrite !bool_decide_eq_true_2.
Qed.

Lemma not_black s e : J s -> in_blacklist s e = false.
Proof using. intros HJ. unfold in_blacklist. rewrite (j_black _ HJ). apply bool_decide_eq_false_2, not_elem_of_empty. Qed.

Lemma body_init rec g : g ∈ Gs -> handle_body c rec g =
  (do dup <- pread (λ s, is_duplicate s g); if dup : bool then pskip else
   do b <- pread (λ s, in_blacklist s (g_p0 g)); if b : bool then pskip else handle_init c rec (fm g) g).
Proof using HG.
  intros Hg. unfold handle_body. rewrite (head_kind _ _ _ HG g Hg). pose proof (fm_acc g). by destruct (fm g).
Qed.

Lemma T_pos : 0 < cc_threshold (gc_crypto c).
Proof using HN Hu. rewrite (hn_threshold _ _ HN u c Hu). pose proof (hn_enough _ _ HN). lia. Qed.

(** Up to the insertion. *)
Lemma init_steps rec g (X : gprog unit -> gst -> Prop) s : g ∈ Gs ->
  (forall {Y} (f : gst -> Y) k s, (forall s1, grows s s1 -> GI c s1 -> J s1 -> X (k (f s1)) s1) -> X (Act (λ s, (s, f s)) k) s) ->
  (forall s, GI c s -> J s -> holds s g -> X pskip s) ->
  (forall k s, GI c s -> J s -> k true = tail_head g -> k false = pskip -> X (Act (insert_unless_dup (OInit (fm g)) g) k) s) ->
  X (handle_body c rec g) s.
Proof using HN HG Hu.
  intros Hg Xr Xd Xi. rewrite body_init by done. cbn [pbind pread]. apply Xr. intros s1 _ G1 J1.
  destruct (is_duplicate s1 g) eqn:Hd; [apply Xd; auto; by apply head_is_dup|]. cbn [pbind pread]. apply Xr. intros s2 _ G2 J2. rewrite not_black by done.
  unfold handle_init. pose proof (head_type _ _ _ HG g Hg) as Ht. cbn [pbind pread]. apply Xr. intros s3 _ G3 J3. 
  rewrite (no_full_count c) by (auto; rewrite Ht; apply init_neq_full). cbn [Nat.ltb Nat.leb].
  cbn [pbind pread]. apply Xr. intros s4 _ G4 J4. rewrite (no_frag_count c) by (auto; rewrite Ht; apply init_neq_frag).
  pose proof T_pos. destruct (Nat.leb_spec (cc_threshold (gc_crypto c)) 0); [lia|]. cbn [pbind pread]. apply Xr. intros s5 _ G5 J5.
  rewrite head_not_malicious by done. unfold store. rewrite (vs_verify _ _ _ HG g u c Hg Hu), (head_kind _ _ _ HG g Hg).
  cbn [pbind patomic]. apply Xi; auto.
Qed.

Lemma good_init rec g s : g ∈ Gs -> Good 0 (handle_body c rec g) s.
Proof using HN HG Hu.
  intros Hg. apply (init_steps rec g (λ q s, Good 0 q s)); [done|intros; by apply g_read|done|].
  clear s. intros k s G0 J0 Kt Kf s1 R1 G1 J1 G2. unfold insert_unless_dup in *.
  destruct (is_duplicate s1 g) eqn:Hd; cbn [fst snd] in *.
  - rewrite Kf. split_and!; auto; [reflexivity|]. exists 0. split; [lia|done].
  - rewrite Kt. fold (inserted s1 (OInit (fm g)) g) in *.
    assert (get_tbl s1 (OInit (fm g)) !! get_id g = None) as El.
    { destruct (get_tbl s1 (OInit (fm g)) !! get_id g) as [o|] eqn:El; [|done]. pose proof (head_dup s1 g o Hg G1 J1 El) as ->.
      assert (is_duplicate s1 g = true) by (by apply head_is_dup). congruence. }
    destruct (insert_effect s1 g Hg J1 El) as (A1 & A2 & A3 & A4 & A5 & A6 & A7). split_and!; auto.
    + intros d Hdue Hw. destruct Hdue as [h Hh|h v Hh Hv|h Hh|h o v Hh Hv|h Hh|h x Hh]; cbn [du_when d_own d_send d_mon d_relay d_full d_fmon] in *.
      * apply A3 in Hw as [Hw| ->]; [by left|right; by apply pays_tail_own|done].
      * apply A3 in Hw as [Hw| ->]; [by left|right; by apply pays_tail_send|done].
      * apply A3 in Hw as [Hw| ->]; [by left|right; by apply pays_tail_mon|done].
      * left. by rewrite A4 in Hw.
      * left. by rewrite A4 in Hw.
      * left. by rewrite A5 in Hw.
    + exists (S nb). split; [lia|]. by apply good_tail.
Qed.

Lemma pays_init rec g s : g ∈ Gs -> pays (d_head g) (handle_body c rec g) s.
Proof using HN HG Hu.
  intros Hg. apply (init_steps rec g (λ q s, pays (d_head g) q s)); [done|intros; by apply p_read| |].
  - clear s. intros s _ _ H. by left.
  - clear s. intros k s G0 J0 Kt Kf. right. intros s1 R1 G1 J1 G2 _ _. unfold insert_unless_dup in *.
    destruct (is_duplicate s1 g) eqn:Hd; cbn [fst snd] in *.
    + apply pays_done. cbn. by apply head_is_dup.
    + apply pays_done. cbn [d_head du_done]. unfold holds. autorewrite with gst. rewrite get_tbl_set_tbl, decide_True by done. apply lookup_insert.
Qed.
(** ** An aggregate is handled *)
Record okfull (g x : gobj) : Prop := mkokfull {
  of_verify : verify (gc_crypto c) x = Accept;
  of_kind : obj_kind x = KObj (OFull (fm g));
  of_id : get_id x = full_id g;
  of_p1 : g_p1 x = g_p1 g;
  of_p2 : g_p2 x = g_p2 g;
  of_len : length (g_signers x) = T;
  of_known : forall w, w ∈ g_signers x -> is_Some (cfgs !! w)
}.

Lemma body_full rec g x : okfull g x -> handle_body c rec x =
  (do dup <- pread (λ s, is_duplicate s x); if dup : bool then pskip else
   do b <- pread (λ s, in_blacklist s (g_p0 x)); if b : bool then pskip else handle_full c (fm g) x).
Proof using. intros Hx. unfold handle_body. by rewrite (of_kind _ _ Hx). Qed.

Lemma insert_full_effect s g x : g ∈ Gs -> okfull g x -> J s -> let s' := inserted s (OFull (fm g)) x in
  J s' /\ grows s s' /\ (forall h, holds s' h <-> holds s h) /\ (forall h, bucket s' h = bucket s h) /\
  fulls s' g !! full_id g = Some x /\ (forall h, h ∈ Gs -> h <> g -> fulls s' h !! full_id h = fulls s h !! full_id h) /\
  spent s' = spent s /\ budget s' = budget s.
Proof using HG.
  intros Hg Hx [A1 A2 A3 A4 A6 A5 A0] s'.
  assert (forall f, get_tbl s' (OInit f) = get_tbl s (OInit f)) as Ei.
  { intros f. unfold s', inserted. autorewrite with gst. by rewrite get_tbl_set_tbl, decide_False. }
  assert (forall h, bucket s' h = bucket s h) as Eb.
  { intros h. unfold NetworkNode.bucket, get_object_list, s', inserted. by autorewrite with gst. }
  assert (fulls s' g !! full_id g = Some x) as Eg.
  { unfold fulls, s', inserted. autorewrite with gst. rewrite get_tbl_set_tbl, decide_True by done. by rewrite (of_id _ _ Hx), lookup_insert. }
  assert (forall h, h ∈ Gs -> h <> g -> fulls s' h !! full_id h = fulls s h !! full_id h) as Eo.
  { intros h Hh Hn. unfold fulls, s', inserted. autorewrite with gst. rewrite get_tbl_set_tbl.
    destruct (decide (OFull (fm g) = OFull (fm h))) as [E|E]; [|done]. injection E as E. rewrite E, (of_id _ _ Hx), lookup_insert_ne; [done|].
    intros E'. injection E' as _ E'. apply Hn. eapply same_id; eauto. }
  assert (forall h, holds s' h <-> holds s h) as Eh by (intros h; unfold holds; by rewrite Ei).
  assert (posts (t_trace s') = posts (t_trace s)) as Ep.
  { unfold s', inserted. autorewrite with gst. rewrite posts_app. by rewrite app_nil_r. }
  split_and!; auto.
  - split.
    + unfold s', inserted. by autorewrite with gst.
    + unfold s', inserted. by autorewrite with gst.
    + intros f i o. rewrite Ei. apply A3.
    + intros h o. rewrite Eb. apply A4.
    + by rewrite Ep.
    + intros h y Hh. destruct (decide (h = g)) as [->|Hn].
      * rewrite Eg. intros [= <-]. destruct Hx. auto.
      * rewrite Eo by done. by apply A5.
    + intros v y. unfold s', inserted. autorewrite with gst. rewrite elem_of_app. intros [Hy|Hy]; [by eapply A0|]. by apply elem_of_list_singleton in Hy.
  - split.
    + unfold s', inserted. autorewrite with gst. by apply prefix_app_r.
    + intros h _. apply Eh.
    + intros h o _. by rewrite Eb.
    + intros h _. by rewrite Eb.
    + intros h Hh. destruct (decide (h = g)) as [->|Hn]; [rewrite Eg; eauto|by rewrite Eo].
  - by apply spent_same.
  - apply sumf_ext. intros h _. unfold weight. rewrite Eb. f_equal.
    destruct (decide (holds s' h)) as [H|H], (decide (holds s h)) as [H'|H']; auto; by apply Eh in H' || apply Eh in H.
Qed.

Definition tail_full : gprog unit := do conv <- pread (is_convergent c); pwhen conv (pmodify (λ s, set_conv s (k_second s))).
Lemma good_tail_full s : Good 0 tail_full s.
Proof using.
  unfold tail_full. cbn [pbind pread]. apply g_read. intros s1 _ _ _. destruct (is_convergent c s1); cbn [pwhen pmodify pskip]; [|done].
  apply (good_frame _ 0 _ _ _ (λ _, [])); [|done]. intros s2. split; [apply frame_conv|]. cbn. lia.
Qed.

Lemma full_steps rec g x (X : gprog unit -> gst -> Prop) s : g ∈ Gs -> okfull g x ->
  (forall {Y} (f : gst -> Y) k s, (forall s1, grows s s1 -> GI c s1 -> J s1 -> X (k (f s1)) s1) -> X (Act (λ s, (s, f s)) k) s) ->
  (forall s, is_Some (fulls s g !! full_id g) -> X pskip s) ->
  (forall s, is_Some (fulls s g !! full_id g) -> X tail_full s) ->
  (forall k s, k tt = (send_to_monitor c x >>> tail_full) -> X (Act (λ s, (inserted s (OFull (fm g)) x, tt)) k) s) ->
  X (handle_body c rec x) s.
Proof using.
  intros Hg Hx Xr Xd Xt Xi. rewrite (body_full _ g) by done. cbn [pbind pread]. apply Xr. intros s1 _ G1 J1.
  destruct (is_duplicate s1 x) eqn:Hd.
  { apply Xd. unfold is_duplicate in Hd. rewrite (of_kind _ _ Hx), (of_id _ _ Hx) in Hd. unfold fulls. destruct (get_tbl s1 (OFull (fm g)) !! full_id g); [eauto|done]. }
  cbn [pbind pread]. apply Xr. intros s2 _ G2 J2. rewrite not_black by done.
  unfold handle_full. cbn [pbind pread]. apply Xr. intros s3 _ G3 J3. rewrite not_black by done.
  cbn [pbind pread]. apply Xr. intros s4 _ G4 J4. unfold obj_count. rewrite (of_id _ _ Hx).
  destruct (get_tbl s4 (OFull (fm g)) !! full_id g) as [o|] eqn:El.
  - cbn [Nat.eqb pskip pbind]. apply Xt. unfold fulls. rewrite El. eauto.
  - cbn [Nat.eqb]. unfold store. rewrite (of_verify _ _ Hx), (of_kind _ _ Hx). rewrite (bool_decide_eq_false_2 (fm g = Acc)) by apply fm_acc.
    cbn [pwhen pskip pbind pmodify]. apply Xi. done.
Qed.

Lemma good_full rec g x s : g ∈ Gs -> okfull g x -> Good 0 (handle_body c rec x) s.
Proof using HG Hu.
  intros Hg Hx. apply (full_steps rec g x (λ q s, Good 0 q s)); [done|done|intros; by apply g_read|done|intros; apply good_tail_full|].
  clear s. intros k s Hk s1 R1 G1 J1 G2. cbn [fst snd] in *. destruct (insert_full_effect s1 g x Hg Hx J1) as (A1 & A2 & A3 & A4 & A5 & A6 & A7 & A8).
  rewrite Hk. split_and!; auto.
  - intros d Hd Hw. destruct Hd as [h Hh|h v Hh Hv|h Hh|h o v Hh Hv|h Hh|h y Hh]; cbn [du_when d_own d_send d_mon d_relay d_full d_fmon] in *.
    1-3: left; by apply A3.
    1-2: left; by rewrite <- A4.
    destruct (decide (h = g)) as [->|Hn]; [|left; by rewrite <- A6]. right. rewrite A5 in Hw. injection Hw as <-.
    unfold send_to_monitor. cbn [pbind pmodify]. right. intros s2 _ _ _ _ _ _. apply pays_done. cbn [fst snd d_fmon du_done].
    autorewrite with gst. apply elem_of_app. right. by left.
  - exists 0. split; [lia|]. unfold send_to_monitor. cbn [pbind pmodify].
    apply (good_frame _ 0 _ _ _ (λ _, [ToMonitor (gc_owner c) x])).
    + intros s2. split; [apply frame_quiet; [done|]; intros ? ? [= _ <-]; right; exists g; destruct Hx; eauto 10|]. cbn. lia.
    + intros s2 _ _ _ _ _ _. apply good_tail_full.
Qed.

Lemma pays_full rec g x s : g ∈ Gs -> okfull g x -> pays (d_full g) (handle_body c rec x) s.
Proof using HG.
  intros Hg Hx. apply (full_steps rec g x (λ q s, pays (d_full g) q s)); [done|done|intros; by apply p_read| | |].
  - intros; by apply pays_done.
  - intros; by apply pays_done.
  - clear s. intros k s Hk. right. intros s1 R1 G1 J1 G2 R2 J2. cbn [fst snd] in *. apply pays_done. cbn [d_full du_done].
    destruct (insert_full_effect s1 g x Hg Hx J1) as (_ & _ & _ & _ & -> & _). eauto.
Qed.

(** ** A fragment arrives *)
Lemma bucket_bound s g : GI c s -> length (bucket s g) <= T.
Proof using HN Hu.
  intros HI. unfold NetworkNode.bucket, get_object_list, frags_at. destruct (get_frags s (fm g) !! frag_id g) as [l|] eqn:E; [|cbn; lia].
  destruct HI as (_ & _ & H3 & _). rewrite <- (hn_threshold _ _ HN u c Hu). by apply H3 in E as [? _].
Qed.

Definition build (rec : gobj -> gprog unit) (f : fam) (o : gobj) : gprog unit :=
  do l <- pread (λ s, get_object_list s (get_id o) f);
  do full <- generate_full c l (target_type o);
  pmodify (λ s, add_trace s [EvFull full]) >>> rec full.

Lemma built g l s s2 : g ∈ Gs -> J s -> J s2 -> bucket s g = l -> length l = T ->
  exists ts g0 r, cc_thr_aggregate (gc_crypto c) (frags_of l) = Some ts /\ l = (g0 :: r)%list /\ okfull g (full_of s2 (fm g) g0 l ts).
Proof using All.
  intros Hg J1 J2 El Hl.
  assert (cc_threshold (gc_crypto c) = T) as ET by (by apply (hn_threshold _ _ HN u)).
  assert (cc_thr_scheme (gc_crypto c) = "bls") as Hbls by (by apply (hn_scheme _ _ HN u)).
  assert (exists ts, cc_thr_aggregate (gc_crypto c) (frags_of l) = Some ts) as [ts Hts].
  { unfold cc_thr_aggregate, thr_aggregate, frags_of. rewrite Hbls. cbn [String.eqb Ascii.eqb Bool.eqb]. rewrite map_length.
    destruct (Nat.ltb_spec (length l) (cc_threshold (gc_crypto c))); [lia|]. by eexists. }
  assert (forall x, x ∈ l -> exists w e, cfgs !! w = Some e /\ x = the_frag e g) as Hx.
  { intros x Hx. rewrite <- El in Hx. by apply (j_frag _ J1 g). }
  assert (Forall (honest_fragment (gc_crypto c) (frag_id g) (g_p1 g) (g_p2 g)) l) as Hh.
  { apply Forall_forall. intros x Hin. destruct (Hx x Hin) as (w & e & Hw & ->). by apply (honest_the_frag cfgs T p Gs HN HG u c w). }
  destruct l as [|g0 r] eqn:Er; [pose proof (hn_enough _ _ HN); cbn in Hl; lia|]. rewrite <- Er in *.
  exists ts, g0, r. split; [done|]. split; [done|].
  assert (honest_fragment (gc_crypto c) (frag_id g) (g_p1 g) (g_p2 g) g0) as (H0i & H01 & H02 & _).
  { rewrite Er in Hh. by inversion Hh. }
  assert (g_p0 g0 = g_p0 g) as H0p by (by injection H0i).
  split.
  - eapply (full_accepted c Hagg Hperm Hdeser Hbls s2 (fm g) (frag_id g) (g_p1 g) (g_p2 g) _ r); eauto. by eapply head_p0.
  - unfold obj_kind; cbn; by destruct (fm g).
  - unfold get_id, full_id; cbn. by rewrite (j_period _ J2), H0p.
  - done.
  - done.
  - change (g_signers (full_of s2 (fm g) g0 l ts)) with (map g_signer l). by rewrite map_length.
  - change (g_signers (full_of s2 (fm g) g0 l ts)) with (map g_signer l). intros w Hw. apply elem_of_list_fmap in Hw as (x & -> & Hxin).
    destruct (Hx x Hxin) as (w & e & Hw & ->). exists e. rewrite <- Hw. f_equal. rewrite <- (proj1 (hn_self _ _ HN w e Hw)). unfold fragment_by. by destruct g.
Qed.

Lemma build_steps rec v d g (X : gprog unit -> gst -> Prop) s : cfgs !! v = Some d -> g ∈ Gs -> T <= length (bucket s g) ->
  (forall {Y} (f : gst -> Y) k s, (forall s1, grows s s1 -> GI c s1 -> J s1 -> X (k (f s1)) s1) -> X (Act (λ s, (s, f s)) k) s) ->
  (forall x k s, okfull g x -> k tt = rec x -> X (Act (λ s, (add_trace s [EvFull x], tt)) k) s) ->
  X (build rec (fm g) (the_frag d g)) s.
Proof using All.
  intros Hv Hg HT Xr Xf. destruct (frag_fields _ p _ HG d g Hg) as (Fk & Fi & _). unfold build. rewrite Fi. cbn [pbind pread]. apply Xr.
  intros s1 R1 G1 J1. fold (NetworkNode.bucket p s1 g). remember (bucket s1 g) as l eqn:El. symmetry in El.
  assert (length l = T) as Hl.
  { pose proof (gr_len _ _ R1 g Hg). pose proof (bucket_bound s1 g G1). subst l. lia. }
  destruct (built g l s1 s1 Hg J1 J1 El Hl) as (ts & g0 & r & Ha & Er & _).
  rewrite (target_type_frag _ _ Fk). unfold generate_full. fold (frags_of (P:=P) l). rewrite Ha, Er. cbn [pbind pread]. rewrite <- Er. apply Xr. intros s2 R2 G2 J2.
  cbn [pbind pmodify fst snd]. destruct (built g l s1 s2 Hg J1 J2 El Hl) as (ts' & g0' & r' & Ha' & Er' & Hok).
  assert (ts' = ts) as -> by congruence. assert (g0' = g0) as -> by congruence.
  apply Xf; done.
Qed.

Lemma good_build rec v d g s : (forall x, exists r, rec x = handle_body c r x) -> cfgs !! v = Some d -> g ∈ Gs -> T <= length (bucket s g) ->
  Good 0 (build rec (fm g) (the_frag d g)) s.
Proof using All.
  intros Hr Hv Hg HT. apply (build_steps rec v d g (λ q s, Good 0 q s)); auto; [intros; by apply g_read|].
  clear s HT. intros x k s Hx Hk. apply (good_frame _ 0 _ _ _ (λ _, [EvFull x])).
  - intros s1. split; [by apply frame_quiet|]. cbn. lia.
  - intros s1 _ _ _ _ _ _. rewrite Hk. destruct (Hr x) as [r ->]. by apply (good_full r g).
Qed.
Lemma pays_build rec v d g s : (forall x, exists r, rec x = handle_body c r x) -> cfgs !! v = Some d -> g ∈ Gs -> T <= length (bucket s g) ->
  pays (d_full g) (build rec (fm g) (the_frag d g)) s.
Proof using All.
  intros Hr Hv Hg HT. apply (build_steps rec v d g (λ q s, pays (d_full g) q s)); auto; [intros; by apply p_read|].
  clear s HT. intros x k s Hx Hk. right. intros s1 _ _ _ _ _ _. cbn [fst snd]. rewrite Hk. destruct (Hr x) as [r ->]. by apply (pays_full r g).
Qed.

Lemma body_frag rec (d : gconf P) g : g ∈ Gs -> handle_body c rec (the_frag d g) =
  (do dup <- pread (λ s, is_duplicate s (the_frag d g)); if dup : bool then pskip else
   do b <- pread (λ s, in_blacklist s (g_p0 (the_frag d g))); if b : bool then pskip else handle_frag c rec (fm g) (the_frag d g)).
Proof using HG. intros Hg. unfold handle_body. by rewrite (proj1 (frag_fields _ p _ HG d g Hg)). Qed.

Lemma frag_is_dup s v d g : cfgs !! v = Some d -> g ∈ Gs -> J s -> is_duplicate s (the_frag d g) = true -> the_frag d g ∈ bucket s g.
Proof using HN HG Hdeser.
  intros Hv Hg HJ. destruct (frag_fields _ p _ HG d g Hg) as (Fk & Fi & _ & _ & _ & Fs & _). unfold is_duplicate. rewrite Fk, Fi.
  fold (NetworkNode.bucket p s g). intros H. apply existsb_exists in H as (x & Hx & Hs). apply elem_of_list_In in Hx.
  destruct (j_frag _ HJ g x Hg Hx) as (w & e & Hw & ->). destruct (frag_fields _ p _ HG e g Hg) as (_ & _ & _ & _ & _ & Es & _).
  unfold same_sig in Hs. apply andb_true_iff in Hs as [A _]. apply bool_decide_eq_true in A. rewrite Fs, Es in A.
  assert (v = w) as -> by (first [exact (sig_inj cfgs T HN Hdeser v d w e g g Hv Hw A) | exact (sig_inj cfgs T HN Hdeser w e v d g g Hw Hv A) | symmetry; exact (sig_inj cfgs T HN Hdeser w e v d g g Hw Hv A)]).
  by simplify_eq.
Qed.

Lemma added_effect s v d g : cfgs !! v = Some d -> g ∈ Gs -> J s -> length (bucket s g) < T -> let s' := added s (fm g) (the_frag d g) in
  J s' /\ grows s s' /\ (forall h, holds s' h <-> holds s h) /\ bucket s' g = (bucket s g ++ [the_frag d g])%list /\
  (forall h, h ∈ Gs -> h <> g -> bucket s' h = bucket s h) /\ (forall h, fulls s' h = fulls s h) /\
  spent s' = spent s /\ budget s + nb <= budget s'.
Proof using HG.
  intros Hv Hg [A1 A2 A3 A4 A6 A5 A0] Hl s'. destruct (frag_fields _ p _ HG d g Hg) as (Fk & Fi & _).
  assert (forall k, get_tbl s' k = get_tbl s k) as Et by (intros k; apply added_tbl).
  assert (bucket s' g = (bucket s g ++ [the_frag d g])%list) as Eg.
  { unfold NetworkNode.bucket. rewrite <- Fi. unfold s'. apply added_list. }
  assert (forall h, h ∈ Gs -> h <> g -> bucket s' h = bucket s h) as Eb.
  { intros h Hh Hn. unfold NetworkNode.bucket, get_object_list, frags_at, s', added. autorewrite with gst. rewrite get_frags_set_frags.
    destruct (decide (fm g = fm h)) as [E|E]; [|done].
    rewrite Fi, lookup_insert_ne; [by rewrite E|]. intros E'. injection E' as _ E'. apply Hn. symmetry. by eapply same_id. }
  assert (forall h, holds s' h <-> holds s h) as Eh by (intros h; unfold holds; by rewrite Et).
  assert (forall h, fulls s' h = fulls s h) as Ef by (intros h; unfold fulls; by rewrite Et).
  assert (posts (t_trace s') = posts (t_trace s)) as Ep.
  { unfold s', added. autorewrite with gst. rewrite posts_app. by rewrite app_nil_r. }
  assert (forall h, (if decide (holds s' h) then S nb else 0) = (if decide (holds s h) then S nb else 0)) as Ew.
  { intros h. destruct (decide (holds s' h)) as [H|H], (decide (holds s h)) as [H'|H']; auto; by apply Eh in H' || apply Eh in H. }
  split_and!; auto.
  - split.
    + unfold s'. by rewrite added_black.
    + unfold s'. by rewrite added_period.
    + intros f i o. rewrite Et. apply A3.
    + intros h o Hh. destruct (decide (h = g)) as [->|Hn]; [|rewrite Eb by done; by apply A4].
      rewrite Eg, elem_of_app, elem_of_list_singleton. intros [Ho| ->]; [by apply A4|eauto].
    + by rewrite Ep.
    + intros h x. rewrite Ef. apply A5.
    + intros w x. unfold s', added. autorewrite with gst. rewrite elem_of_app. intros [Hx|Hx]; [by eapply A0|]. by apply elem_of_list_singleton in Hx.
  - split.
    + unfold s', added. autorewrite with gst. by apply prefix_app_r.
    + intros h _. apply Eh.
    + intros h o Hh Ho. destruct (decide (h = g)) as [->|Hn]; [rewrite Eg; apply elem_of_app; by left|by rewrite Eb].
    + intros h Hh. destruct (decide (h = g)) as [->|Hn]; [rewrite Eg, app_length; lia|by rewrite Eb].
    + intros h _. by rewrite Ef.
  - by apply spent_same.
  - unfold budget. apply (sumf_lt _ _ _ g); [done| |].
    + intros h Hh. unfold weight. rewrite Ew. destruct (decide (h = g)) as [->|Hn]; [rewrite Eg, app_length; cbn [length]; lia|by rewrite Eb].
    + unfold weight. rewrite Ew, Eg, app_length. cbn [length]. lia.
Qed.

Definition rest (rec : gobj -> gprog unit) (g o : gobj) (before : nat) : gprog unit :=
  (if Nat.eqb (S before) T then build rec (fm g) o else pskip) >>> pwhen (Nat.ltb before T) (send_to_gossipers c o).

Lemma frag_steps rec v d g (X : gprog unit -> gst -> Prop) s : cfgs !! v = Some d -> g ∈ Gs ->
  (forall {Y} (f : gst -> Y) k s, (forall s1, grows s s1 -> GI c s1 -> J s1 -> X (k (f s1)) s1) -> X (Act (λ s, (s, f s)) k) s) ->
  (forall s, the_frag d g ∈ bucket s g -> X pskip s) ->
  (forall k s, (forall b, k b = rest rec g (the_frag d g) b) -> X (Act (read_and_store c (fm g) (the_frag d g)) k) s) ->
  X (handle_body c rec (the_frag d g)) s.
Proof using HN HG Hu Hdeser.
  intros Hv Hg Xr Xd Xi. rewrite body_frag by done. cbn [pbind pread]. apply Xr. intros s1 _ G1 J1.
  destruct (is_duplicate s1 (the_frag d g)) eqn:Hd; [apply Xd; by eapply frag_is_dup|]. cbn [pbind pread]. apply Xr. intros s2 _ G2 J2. rewrite not_black by done.
  destruct (frag_fields _ p _ HG d g Hg) as (Fk & Fi & _).
  unfold handle_frag. cbn [pbind pread]. apply Xr. intros s3 _ G3 J3.
  rewrite (no_full_count c) by (auto; rewrite (proj1 (obj_kind_frag _ _) Fk); destruct (fm g); done). cbn [Nat.ltb Nat.leb pbind patomic].
  apply Xi. intros b. unfold rest, build. by rewrite (hn_threshold _ _ HN u c Hu).
Qed.

Lemma frag_posts v d g : cfgs !! v = Some d -> g ∈ Gs -> length (posts (sends c (the_frag d g))) = nb.
Proof using HG Hu. intros Hv Hg. rewrite (posts_sends c _ _ _ (out_frag _ _ _ HG u c v d g Hu Hv Hg)). unfold nb. apply map_length. Qed.

Lemma good_relay v d g (b : bool) s : cfgs !! v = Some d -> g ∈ Gs -> Good nb (pwhen b (send_to_gossipers c (the_frag d g))) s.
Proof using HN HG Hu.
  intros Hv Hg. destruct b; cbn [pwhen]; [|done]. unfold send_to_gossipers. cbn [pmodify]. apply (good_frame _ 0 _ _ _ (λ _, sends c (the_frag d g))); [|done].
  intros s1. split; [by eapply frame_sends_frag|]. erewrite frag_posts by eauto. lia.
Qed.
Lemma pays_relay v d g w s : cfgs !! v = Some d -> g ∈ Gs -> w ∈ gc_neighbours c -> pays (d_relay g (the_frag d g) w) (send_to_gossipers c (the_frag d g)) s.
Proof using HG Hu.
  intros Hv Hg Hw. unfold send_to_gossipers. cbn [pmodify]. right. intros s1 _ _ _ _ _ _. apply pays_done. cbn [fst snd d_relay du_done].
  autorewrite with gst. apply elem_of_app. right. apply elem_of_list_fmap. exists w. rewrite (out_frag _ _ _ HG u c v d g Hu Hv Hg). done.
Qed.

Lemma rs_lt f o s : length (get_object_list s (get_id o) f) < T -> read_and_store c f o s = (added s f o, length (get_object_list s (get_id o) f)).
Proof using HN Hu. intros H. unfold read_and_store, added. rewrite (hn_threshold _ _ HN u c Hu). destruct (Nat.ltb_spec (length (get_object_list s (get_id o) f)) T); [done|lia]. Qed.
Lemma rs_ge f o s : T <= length (get_object_list s (get_id o) f) ->
  read_and_store c f o s = (add_trace s [EvBefore (get_id o) (length (get_object_list s (get_id o) f))], length (get_object_list s (get_id o) f)).
Proof using HN Hu. intros H. unfold read_and_store. rewrite (hn_threshold _ _ HN u c Hu). destruct (Nat.ltb_spec (length (get_object_list s (get_id o) f)) T); [lia|done]. Qed.

Lemma good_frag rec v d g s : (forall x, exists r, rec x = handle_body c r x) -> cfgs !! v = Some d -> g ∈ Gs ->
  Good 0 (handle_body c rec (the_frag d g)) s.
Proof using All.
  intros Hr Hv Hg. apply (frag_steps rec v d g (λ q s, Good 0 q s)); [done|done|intros; by apply g_read|done|].
  clear s. intros k s Hk s1 R1 G1 J1. destruct (frag_fields _ p _ HG d g Hg) as (Fk & Fi & _).
  destruct (Nat.lt_ge_cases (length (bucket s1 g)) T) as [Hl|Hl].
  - rewrite rs_lt by (by rewrite Fi). cbn [fst snd]. intros G2. rewrite Fi. fold (NetworkNode.bucket p s1 g).
    destruct (added_effect s1 v d g Hv Hg J1 Hl) as (A1 & A2 & A3 & A4 & A5 & A6 & A7 & A8). set (s' := added s1 (fm g) (the_frag d g)) in *.
    set (b := length (bucket s1 g)) in *. rewrite Hk. unfold rest. destruct (Nat.ltb_spec b T) as [_|]; [|lia].
    assert (length (bucket s' g) = S b) as Hb by (rewrite A4, app_length; cbn [length]; unfold b; lia).
    assert (Good 0 (if Nat.eqb (S b) T then build rec (fm g) (the_frag d g) else pskip) s') as Gb.
    { destruct (Nat.eqb_spec (S b) T) as [E|E]; [|done]. apply (good_build _ v); auto. lia. }
    split_and!; auto.
    + intros e He Hw. destruct He as [h Hh|h w Hh Hw'|h Hh|h o w Hh Hw'|h Hh|h x Hh]; cbn [du_when d_own d_send d_mon d_relay d_full d_fmon] in *.
      1-3: left; by apply A3.
      * destruct (decide (h = g)) as [->|Hn]; [|left; by rewrite <- A5]. rewrite A4 in Hw. apply elem_of_app in Hw as [Hw|Hw]; [by left|].
        apply elem_of_list_singleton in Hw as ->. right. eapply pays_second; [exact Gb|]. intros _ s2. by apply (pays_relay v).
      * destruct (decide (h = g)) as [->|Hn]; [|left; by rewrite <- A5]. right. apply pays_first.
        destruct (Nat.eqb_spec (S b) T) as [E|E]; [|rewrite Hb in Hw; lia]. apply (pays_build _ v); auto.
      * left. by rewrite <- A6.
    + exists nb. split; [lia|]. change nb with (0 + nb). apply good_seq; [exact Gb|]. intros _ s2. by apply (good_relay v d g true).
  - rewrite rs_ge by (by rewrite Fi). cbn [fst snd]. intros G2. rewrite Fi in *. fold (NetworkNode.bucket p s1 g) in *.
    set (b := length (bucket s1 g)) in *. rewrite Hk. unfold rest. destruct (Nat.ltb_spec b T) as [|_]; [lia|].
    destruct (Nat.eqb_spec (S b) T) as [E|_]; [lia|].
    assert (frame s1 (add_trace s1 [EvBefore (frag_id g) b]) [EvBefore (frag_id g) b]) as F by (by apply frame_quiet).
    split_and!; [by eapply frame_J|by eapply frame_grows| |].
    + intros e He Hw. left. by eapply frame_when.
    + exists 0. split; [rewrite (frame_spent _ _ _ F), (frame_budget _ _ _ F); cbn; lia|done].
Qed.

Lemma pays_frag rec v d g s : cfgs !! v = Some d -> g ∈ Gs -> pays (d_got g (the_frag d g)) (handle_body c rec (the_frag d g)) s.
Proof using HN HG Hu Hdeser.
  intros Hv Hg. apply (frag_steps rec v d g (λ q s, pays (d_got g (the_frag d g)) q s)); [done|done|intros; by apply p_read| |].
  - intros s1 H. apply pays_done. by left.
  - clear s. intros k s Hk. right. intros s1 R1 G1 J1. destruct (frag_fields _ p _ HG d g Hg) as (Fk & Fi & _).
    destruct (Nat.lt_ge_cases (length (bucket s1 g)) T) as [Hl|Hl].
    + rewrite rs_lt by (by rewrite Fi). cbn [fst snd]. intros _ _ _. apply pays_done.
      destruct (added_effect s1 v d g Hv Hg J1 Hl) as (_ & _ & _ & A4 & _). left. rewrite A4. apply elem_of_app. right. by left.
    + rewrite rs_ge by (by rewrite Fi). cbn [fst snd]. intros _ R2 _. apply pays_done. right. pose proof (gr_len _ _ R2 g Hg). lia.
Qed.

(** ** A timer *)
Lemma rec_body x : exists r, handle_n c 2 x = handle_body c r x.
Proof using. by eexists. Qed.

Lemma signs g : g ∈ Gs -> cc_thr_sign (gc_crypto c) (signed_msg g) = Some (the_sig c g).
Proof using HN Hu. intros Hg. unfold cc_thr_sign. by rewrite (hn_scheme _ _ HN u c Hu). Qed.

Lemma good_timer t s : tok t -> Good 0 (start_task c t) s.
Proof using All.
  destruct t as [g]. intros Hg. unfold tok in Hg. unfold start_task. cbn [pbind pread]. apply g_read. intros s1 _ G1 J1. rewrite not_black by done.
  unfold generate_frag. rewrite signs by done. cbn [pbind pmodify]. change (frag_of c g (sigfrag_string (the_sig c g))) with (the_frag c g).
  apply (good_frame _ 0 _ _ _ (λ _, [EvSigned g (the_frag c g)])).
  - intros s2. split; [by apply frame_quiet|]. cbn. lia.
  - intros s2 _ _ _ _ _ _. apply (good_frag _ u); auto. apply rec_body.
Qed.

Lemma pays_timer g s : g ∈ Gs -> pays (d_own g) (start_task c (SignLater g)) s.
Proof using All.
  intros Hg. unfold start_task. cbn [pbind pread]. apply p_read. intros s1 _ G1 J1. rewrite not_black by done.
  unfold generate_frag. rewrite signs by done. cbn [pbind pmodify]. change (frag_of c g (sigfrag_string (the_sig c g))) with (the_frag c g).
  right. intros s2 _ _ _ _ _ _. cbn [fst snd]. apply (pays_weaken _ _ _ (d_got g (the_frag c g))); [done|done|]. by apply (pays_frag _ u).
Qed.

(** ** Requests *)
Lemma request_head g : g ∈ Gs -> object_handler c (Z.of_nat (len (gobj_marshal g))) g = handle c g.
Proof using HG Hu.
  intros Hg. unfold object_handler. rewrite (head_kind cfgs p Gs HG g Hg).
  rewrite (bool_decide_eq_false_2 (KObj (OInit (fm g)) = KFrag Rev)) by done. rewrite andb_false_r.
  assert (Z.ltb (gc_opt_threshold c) (Z.of_nat (len (gobj_marshal g))) && bool_decide (KObj (OInit (fm g)) = KObj (OInit Rev)) = false) as ->; [|done].
  destruct (bool_decide_reflect (KObj (OInit (fm g)) = KObj (OInit Rev))) as [E|]; [|by rewrite andb_false_r].
  unfold fm in E. destruct (decide (g_type g = STH_INIT)); [done|]. destruct (vs_type _ _ _ HG g Hg) as ([Et|Et] & _); [done|].
  destruct (vs_small _ _ _ HG g u c u c Hg Et Hu Hu) as (_ & H & _). rewrite andb_true_r. by apply Z.ltb_ge.
Qed.
Lemma request_frag v d n g : cfgs !! v = Some d -> g ∈ Gs -> object_handler c n (the_frag d g) = handle c (the_frag d g).
Proof using HG Hu.
  intros Hv Hg. unfold object_handler. rewrite (proj1 (frag_fields cfgs p Gs HG d g Hg)).
  rewrite (bool_decide_eq_false_2 (KFrag (fm g) = KObj (OInit Rev))) by done. rewrite andb_false_r.
  assert (gc_opt_mode c && bool_decide (KFrag (fm g) = KFrag Rev) = false) as ->; [|done].
  destruct (bool_decide_reflect (KFrag (fm g) = KFrag Rev)) as [E|]; [|by rewrite andb_false_r].
  unfold fm in E. destruct (decide (g_type g = STH_INIT)); [done|]. destruct (vs_type _ _ _ HG g Hg) as ([Et|Et] & _); [done|].
  destruct (vs_small _ _ _ HG g u c v d Hg Et Hu Hv) as (-> & _). done.
Qed.

End node.
