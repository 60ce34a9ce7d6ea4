(** Further invariants proved by the walk of GWalk.v. *)
From Verif Require Import Bytes Hex Json Types Crypto Verify Prog Gossiper SpecVerify SpecGossiper ProgFacts GstFacts CodecFacts CryptoFacts VerifyFacts GWalk GossiperInv GossiperSeq.
From Coq Require Import Lia.
Open Scope string_scope.

Section walks.
Context {P : prims} (cfg : gconf P).
Notation cc := (gc_crypto cfg).
Notation T := (cc_threshold cc).

(* ---------------------------------------------------------------- *)
(** * The blacklist only grows *)

Definition BR (s s' : gst) : Prop := t_black s ⊆ t_black s'.

Local Instance BR_pre : PreOrder BR.
Proof. split; unfold BR; [intros s; done|]. intros a b c. set_solver. Qed.

Local Ltac bk := unfold keeps, BR, inserted; cbn zeta; intros; split_and?; try done; autorewrite with gst; try done; try set_solver.

Lemma walk_black : walk_ok cfg (λ _, True) BR (λ _ _, True) (λ _, True) (λ _ _, True) (λ _ _, True).
Proof.
  split; try by bk.
  - apply BR_pre.
  - intros s g f _ _ _. unfold keeps, BR, read_and_store. split; [done|]. cbn [fst]. autorewrite with gst.
    destruct (Nat.ltb _ _); by autorewrite with gst.
Qed.

Lemma periodic_black s : t_black (run periodic s).1.1 = t_black s.
Proof.
  unfold periodic, save, wipe. cbn. destruct (entry_nonzero _); by autorewrite with gst; destruct s.
Qed.

Lemma no_wipe_pool Dl c c' : psteps (start_task cfg) (no_wipe cfg Dl) clock_step c c' ->
  pool_ok (λ _, True) BR (λ _ _, True) (λ _, True) c ->
  pool_ok (λ _, True) BR (λ _ _, True) (λ _, True) c' /\ BR (p_st c) (p_st c').
Proof.
  intros Hs Ht. eapply pool_steps; [ | | | | |exact Hs|exact Ht].
  - apply BR_pre.
  - done.
  - intros t s _. by eapply s_start; [exact walk_black|].
  - intros p s Hp _. destruct Hp.
    + by eapply s_object; [exact walk_black|..].
    + eapply s_notification; [exact walk_black|]. bk.
    + eapply s_request; [exact walk_black|]. bk.
  - intros s s' (p & sec & st & ->) _. split; [done|]. bk.
Qed.

Lemma no_wipe_black Dl a b d c c' : psteps (start_task cfg) (no_wipe cfg Dl) clock_step (init_pool a b d) c ->
  psteps (start_task cfg) (no_wipe cfg Dl) clock_step c c' -> t_black (p_st c) ⊆ t_black (p_st c').
Proof.
  intros H1 H2. apply no_wipe_pool in H1 as [H1 _]; [|split_and!; cbn; auto].
  by apply no_wipe_pool in H2 as [_ H2].
Qed.

Lemma exec_black p y ts : safe (λ _, True) BR (λ _ _, True) (λ _, True) (λ _ _, True) p (s_st y) ->
  t_black (s_st y) ⊆ t_black (s_st (exec p y ts)).
Proof.
  intros Hs. unfold exec.
  pose proof (safe_run (λ _, True) BR (λ _ _, True) (λ _, True) ltac:(done) (λ _ _, True) p (s_st y) ltac:(done) Hs) as HR.
  destruct (run p (s_st y)) as [[s' new] r]. cbn. destruct r; apply HR.
Qed.

Lemma steps_black l y : t_black (s_st y) ⊆ t_black (s_st (steps cfg y l)).
Proof.
  revert y. induction l as [|e l IH]; intros y; [done|]. cbn. etransitivity; [|apply IH].
  destruct e as [n g|n|n|i|p sec st|]; cbn [step].
  - apply exec_black. by eapply s_object; [exact walk_black|..].
  - apply exec_black. eapply s_notification; [exact walk_black|]. bk.
  - apply exec_black. eapply s_request; [exact walk_black|]. bk.
  - destruct (nth_error _ i) as [t|]; [|done]. apply exec_black. by eapply s_start; [exact walk_black|].
  - cbn. by autorewrite with gst.
  - unfold exec. pose proof (periodic_black (s_st y)) as Hb. destruct (run periodic (s_st y)) as [[s' new] r]. cbn in *. by rewrite Hb.
Qed.

(* ---------------------------------------------------------------- *)
(** * Panics *)

(** Verification of fragments and aggregates never panics; nor does that
    of a conflict proof made from a stored object and one that does not panic. *)
Lemma frag_no_panic g f : obj_kind g = KFrag f -> verify cc g <> Panics.
Proof.
  intros Hk. unfold verify. rewrite Hk. unfold verify_payload_frag, cc_frag_verify.
  repeat match goal with |- context [if ?b then _ else _] => destruct b end; done.
Qed.

Lemma full_no_panic g f : obj_kind g = KObj (OFull f) -> verify cc g <> Panics.
Proof.
  intros Hk. unfold verify. rewrite Hk. unfold verify_payload_threshold, cc_thr_verify.
  repeat match goal with |- context [if ?b then _ else _] => destruct b end; done.
Qed.

Lemma con_no_panic now o g f : o = zero_obj \/ (obj_kind o = KObj (OInit f) /\ verify cc o = Accept) ->
  obj_kind g = KObj (OInit f) -> verify cc g <> Panics -> g_p0 o = g_p0 g \/ o = zero_obj ->
  verify cc (generate_con now o g) <> Panics.
Proof.
  intros Ho Hk Hv Hp. unfold verify at 1. rewrite con_kind. unfold verify_con, generate_con. cbn [g_s0 g_s1 g_p1 g_p2].
  destruct Ho as [->|[Hko Ho]].
  { change (rsasig_from_string (g_s0 zero_obj)) with (@None rsasig). done. }
  destruct Hp as [Hp| ->]; [|done].
  destruct (rsasig_from_string (g_s0 o)) as [s1|] eqn:E1; [|done].
  destruct (rsasig_from_string (g_s0 g)) as [s2|] eqn:E2; [|done].
  unfold verify, verify_rsa_payload in Ho, Hv. rewrite Hko in Ho. rewrite Hk in Hv.
  destruct (negb (is_empty (g_s0 o)) && negb (is_empty (g_p0 o))) eqn:Eo; [|done]. rewrite E1 in Ho.
  rewrite Ho. cbn [both]. apply andb_true_iff in Eo as [_ Eo]. rewrite Hp in Eo.
  destruct (is_empty (g_s0 g)) eqn:Es.
  { apply is_empty_true in Es. rewrite Es in E2. done. }
  rewrite Eo, E2 in Hv. cbn in Hv. done.
Qed.

Definition NR (s s' : gst) : Prop :=
  GR s s' /\ forall f i, length (get_object_list s i f) <= length (get_object_list s' i f).
Definition NH (g : gobj) (s : gst) : Prop := verify cc g <> Panics.

Local Instance NR_pre : PreOrder NR.
Proof.
  split; unfold NR, GR; [intros s; done|]. intros a b c [H1 H2] [H3 H4]. split; [by etransitivity|].
  intros f i. etransitivity; [apply H2|apply H4].
Qed.

Lemma NR_of s s' : (forall f, get_frags s' f = get_frags s f) -> GI cfg s' /\ GR s s' -> keeps (GI cfg) NR s s'.
Proof. intros E [H1 H2]. split; [done|]. split; [done|]. intros f i. unfold get_object_list. by rewrite E. Qed.

Lemma walk_nocrash : cc_thr_scheme cc = "bls" ->
  walk_ok cfg (GI cfg) NR Gtok (λ _, False) NH GD.
Proof.
  intros Hbls. pose proof (walk_GI cfg) as W. split.
  - apply NR_pre.
  - intros t s s' H1 [H2 _]. by eapply (w_tok _ _ _ _ _ _ _ W).
  - done.
  - intros g s s' H1 [H2 _]. by eapply (w_D _ _ _ _ _ _ _ W).
  - intros s g k Hk HI _ Hv Ho Hd. destruct (w_insert _ _ _ _ _ _ _ W s g k) as [A1 A2]; auto.
    split; [|done]. apply NR_of; [|done]. intros f. unfold inserted. by autorewrite with gst.
  - intros s g f HI _ Hv Ho. destruct (w_full _ _ _ _ _ _ _ W s g f) as [A1 A2]; auto.
    split; [|done]. apply NR_of; [|done]. intros f'. unfold inserted. by autorewrite with gst.
  - intros s g HI _ HD Hv Hk. apply NR_of; [intros; by autorewrite with gst|]. by apply (w_black _ _ _ _ _ _ _ W).
  - intros s HI. apply NR_of; [intros; by autorewrite with gst|]. by apply (w_conv _ _ _ _ _ _ _ W).
  - intros s HI. apply NR_of; [intros; by autorewrite with gst|]. by apply (w_conv_init _ _ _ _ _ _ _ W).
  - intros s g HI _ Hv Hk. apply NR_of; [intros; by autorewrite with gst|]. by apply (w_payload _ _ _ _ _ _ _ W).
  - intros s g f HI _ Hk. destruct (w_reads _ _ _ _ _ _ _ W s g f) as [A1 A2]; auto. split; [done|]. split; [done|].
    intros f' i. unfold read_and_store, get_object_list. cbn [fst]. autorewrite with gst.
    destruct (Nat.ltb _ _); [|done]. rewrite get_frags_set_frags. destruct (decide (f = f')) as [<-|]; [|done].
    unfold frags_at at 2. destruct (decide (get_id g = i)) as [<-|Hne].
    + rewrite lookup_insert, app_length. lia.
    + by rewrite lookup_insert_ne.
  - intros s g k HI _ HD Hv Ho Hk. destruct (w_send _ _ _ _ _ _ _ W s g k) as [A1 A2]; auto.
    split; (apply NR_of; [intros; by autorewrite with gst|done]).
  - intros s g f HI _ Hk. apply NR_of; [intros; by autorewrite with gst|]. by eapply (w_send_frag _ _ _ _ _ _ _ W).
  - intros s g f HI _ Hk. apply NR_of; [intros; by autorewrite with gst|]. by eapply (w_send_full _ _ _ _ _ _ _ W).
  - intros s g f HI _ HD Hv Hk Hf. by eapply (w_later _ _ _ _ _ _ _ W).
  - intros s0 s g sf Ht I0 Hb HR HI Hs. cbn zeta.
    destruct (w_sign_timer _ _ _ _ _ _ _ W s0 s g sf) as [A1 A2]; auto; [apply HR|].
    split; [apply NR_of; [intros; by autorewrite with gst|done]|].
    destruct Ht as [_ Ht]. apply is_init_kind in Ht as [f Ht]. eapply frag_no_panic. by apply frag_of_kind.
  - intros s0 s g sf _ HD Hv Hk I0 Hb HR HI Hs. cbn zeta.
    destruct (w_sign_acc _ _ _ _ _ _ _ W s0 s g sf) as [A1 A2]; auto; [apply HR|].
    split; [apply NR_of; [intros; by autorewrite with gst|done]|].
    eapply frag_no_panic. by apply frag_of_kind.
  - intros s0 s g f Hf Hk I0 Hg Hm HR HI now. apply (con_no_panic now _ g f); auto; unfold get_object, obj_at.
    + destruct (get_tbl s (OInit f) !! get_id g) as [o|] eqn:E; [|by left]. right.
      destruct HI as (H1 & _). apply H1 in E as (E1 & E2 & E3). split; [|done]. by apply obj_kind_obj.
    + destruct (get_tbl s (OInit f) !! get_id g) as [o|] eqn:E; [|by right]. left.
      destruct HI as (H1 & _). apply H1 in E as (E1 & E2 & E3). by injection E2.
  - intros s0 s s' g f l g0 ts Hk I0 Hg HT HR HI Hl Ha Hh HR' HI' period stamp (s1 & HR1 & HR2 & Hp). cbn zeta.
    destruct (w_fullgen _ _ _ _ _ _ _ W s0 s s' g f l g0 ts) with (period := period) (stamp := stamp) as [A1 A2]; auto; [apply HR|apply HR'| |].
    { exists s1. split_and!; [apply HR1|apply HR2|done]. }
    split; [apply NR_of; [intros; by autorewrite with gst|done]|].
    eapply (full_no_panic _ f). unfold obj_kind. cbn. by apply target_kind.
  - intros g s Hg Hv. done.
  - done.
  - intros s0 s g f Hk I0 Hg HT [_ HR] HI _ Hlt. specialize (HR f (get_id g)).
    assert (length (get_object_list (read_and_store cfg f g s0).1 (get_id g) f) = T) as Hl; [|lia].
    unfold read_and_store. cbn [fst]. unfold get_object_list. autorewrite with gst.
    change (frags_at (get_frags s0 f) (get_id g)) with (get_object_list s0 (get_id g) f).
    destruct (Nat.ltb_spec (length (get_object_list s0 (get_id g) f)) T); [|lia].
    rewrite get_frags_set_frags, decide_True by done. unfold frags_at. rewrite lookup_insert, app_length. cbn [length]. lia.
Qed.

(** Interleavings without the periodic wipe, delivering objects whose
    verification does not panic. *)
Lemma nocrash_pool a b d c : cc_thr_scheme cc = "bls" ->
  psteps (start_task cfg) (no_wipe cfg (λ g, verify cc g <> Panics)) clock_step (init_pool a b d) c -> p_crashes c = [].
Proof.
  intros Hb Hs. pose proof (walk_nocrash Hb) as W.
  assert (pool_ok (GI cfg) NR Gtok (λ _, False) c) as (_ & _ & _ & HC).
  { eapply pool_steps; [ | | | | |exact Hs|].
    - apply NR_pre.
    - apply (w_tok _ _ _ _ _ _ _ W).
    - intros t s Ht. by eapply s_start; [exact W|].
    - intros p s Hp HI. destruct Hp as [n g Hg|n|n].
      + eapply s_object; [exact W|done|]. intros s1 I1 _ Hk. eapply frag_no_panic. destruct g as [? ? ? ? ? ? ? ? ? ? ? ?]. exact Hk.
      + eapply s_notification; [exact W|]. intros. apply NR_of; [intros; by autorewrite with gst|by apply GI_trace1].
      + eapply s_request; [exact W|]. intros s0 s1 i o url I0 Ho HR I1.
        apply NR_of; [intros; by autorewrite with gst|]. apply GI_trace1; [done| |done]. cbn. right.
        destruct I0 as (_ & H2 & _). apply H2 in Ho as (Hv & _ & Ht). split; [done|]. right. by left.
    - intros s s' (p & sec & st & ->) HI. apply NR_of; [intros; by autorewrite with gst|].
      apply GI_frame; auto; intros; by autorewrite with gst.
    - split_and!; cbn; auto. apply GI_init. }
  destruct (p_crashes c); [done|]. by apply Forall_cons in HC as [[] _].
Qed.

(** Sequential histories, with periodic wipes. *)
Definition calm (e : gevent) : Prop := match e with Recv _ g => verify cc g <> Panics | _ => True end.

Definition SI (y : gsys) : Prop := GI cfg (s_st y) /\ Forall (λ t, Gtok t (s_st y)) (s_tasks y) /\ s_crashes y = [].

Lemma exec_SI p y ts : cc_thr_scheme cc = "bls" -> GI cfg (s_st y) -> s_crashes y = [] -> Forall (λ t, Gtok t (s_st y)) ts ->
  safe (GI cfg) NR Gtok (λ _, False) (λ _ _, True) p (s_st y) -> SI (exec p y ts).
Proof.
  intros Hb HI HC HT Hs. pose proof (walk_nocrash Hb) as W.
  pose proof (safe_run (GI cfg) NR Gtok (λ _, False) (w_tok _ _ _ _ _ _ _ W) _ p (s_st y) HI Hs) as HR.
  unfold exec. destruct (run p (s_st y)) as [[s' new] [a|w]]; destruct HR as (H1 & H2 & H3 & H4); [|done].
  split_and!; cbn; auto. apply Forall_app. split; [|done]. eapply Forall_impl; [exact HT|]. intros t Ht. cbn in *.
  by eapply (w_tok _ _ _ _ _ _ _ W).
Qed.

Lemma periodic_done s : exists s', run periodic s = (s', [], Done tt).
Proof. unfold periodic, save, wipe. cbn. destruct (replace_storage _) as [s1 con]. eexists. reflexivity. Qed.

Lemma step_SI y e : cc_thr_scheme cc = "bls" -> calm e -> SI y -> SI (step cfg y e).
Proof.
  intros Hb He (HI & HT & HC). pose proof (walk_nocrash Hb) as W. destruct e as [n g|n|n|i|p sec st|]; cbn [step calm] in *.
  - apply exec_SI; auto. eapply s_object; [exact W|done|]. intros s1 I1 _ Hk. eapply frag_no_panic. destruct g as [? ? ? ? ? ? ? ? ? ? ? ?]. exact Hk.
  - apply exec_SI; auto. eapply s_notification; [exact W|]. intros. apply NR_of; [intros; by autorewrite with gst|by apply GI_trace1].
  - apply exec_SI; auto. eapply s_request; [exact W|]. intros s0 s1 j o url I0 Ho HR I1.
    apply NR_of; [intros; by autorewrite with gst|]. apply GI_trace1; [done| |done]. cbn. right.
    destruct I0 as (_ & H2 & _). apply H2 in Ho as (Hv & _ & Ht). split; [done|]. right. by left.
  - destruct (nth_error (s_tasks y) i) as [t|] eqn:E; [|done]. apply nth_split in E. rewrite E in HT.
    apply Forall_app in HT as [T1 T2]. apply Forall_cons in T2 as [T2 T3].
    apply exec_SI; auto; [by apply Forall_app|]. by eapply s_start; [exact W|].
  - split_and!; cbn; auto.
    + apply GI_frame with (s := s_st y); auto; intros; by autorewrite with gst.
    + eapply Forall_impl; [exact HT|]. intros [g] [H1 H2]. split; [|done]. unfold GD in *. by autorewrite with gst.
  - pose proof (safe_run (GI cfg) GR Gtok (λ w, w = NilDeref) (PreOrder0:=w_pre _ _ _ _ _ _ _ (walk_GI cfg)) (w_tok _ _ _ _ _ _ _ (walk_GI cfg)) _ periodic (s_st y) HI (periodic_GI cfg _)) as HR.
    unfold exec. destruct (periodic_done (s_st y)) as [s' E]. rewrite E in *. destruct HR as (H1 & H2 & _).
    split_and!; cbn; auto. rewrite app_nil_r. eapply Forall_impl; [exact HT|]. intros t Ht. cbn in *.
    by eapply (w_tok _ _ _ _ _ _ _ (walk_GI cfg)).
Qed.

Lemma steps_nocrash a b d l : cc_thr_scheme cc = "bls" -> Forall calm l ->
  s_crashes (steps cfg (init_gsys a b d) l) = [].
Proof.
  intros Hb Hl. assert (forall y, SI y -> SI (steps cfg y l)) as H.
  { induction Hl as [|e l He _ IH]; intros y Hy; [done|]. cbn. apply IH. by apply step_SI. }
  apply H. split_and!; cbn; auto. apply GI_init.
Qed.

End walks.
