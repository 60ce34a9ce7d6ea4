(** One gossiper of the whole system: without evidence against [e] it neither blacklists [e] nor passes on
    evidence. *)
From Verif Require Import Bytes Hex Json Types Crypto Verify Prog Gossiper Network Overlap SpecVerify SpecGossiper ProgFacts GstFacts CodecFacts CryptoFacts VerifyFacts GWalk GossiperInv GossiperSeq GossiperEvidence Duty.
From Coq Require Import Lia.
Open Scope string_scope.

Section node.
Context (e : string) (Dl : gobj -> Prop).

(** Objects that are no evidence against [e]. *)
Definition NH (g : gobj) : Prop := g_p0 g = e ->
  match obj_kind g with
  | KObj (OInit Acc) | KFrag Acc | KObj OCon | KObj (OFull Acc) => False
  | KObj (OInit _) => Dl g
  | _ => True
  end.

Definition good_ev (v : gevt) : Prop :=
  match v with
  | ToGossiper _ _ (MObj g) => NH g
  | ToMonitor _ g => NH g
  | _ => True
  end.

Context {P : prims} (cfg : gconf P).
Notation cc := (gc_crypto cfg).
Notation T := (cc_threshold cc).
Notation EI := (EI cfg e Dl).
Notation EH := (EH cfg e Dl).

Context (He : no_evidence e Dl) (Hne : e <> "").
Context (Hsigner : forall g, Dl g -> g_p0 g = e -> statement g -> g_signer g <> "").

Definition NI (s : gst) : Prop :=
  EI s /\ Forall good_ev (t_trace s) /\ (forall i o, t_payload s !! i = Some o -> NH o).

Lemma NH_EH g s : NH g -> EH g s.
Proof using. clear. intros H Hp. specialize (H Hp). destruct (obj_kind g) as [[[]| |[]]|[]|]; done. Qed.

Lemma NI_frame s s' l : NI s -> keeps EI GR s s' -> t_trace s' = (t_trace s ++ l)%list -> Forall good_ev l ->
  t_payload s' = t_payload s -> keeps NI GR s s'.
Proof using.
  clear. intros (I1 & I2 & I3) [H1 H2] E Hl Ep. split; [|done]. split_and!; auto.
  - rewrite E. by apply Forall_app.
  - by rewrite Ep.
Qed.

Lemma NI_still s s' : NI s -> keeps EI GR s s' -> t_trace s' = t_trace s -> t_payload s' = t_payload s -> keeps NI GR s s'.
Proof using. intros H1 H2 E1 E2. apply (NI_frame s s' []); auto. by rewrite app_nil_r. Qed.

Lemma sends_good g : NH g -> Forall good_ev (sends cfg g).
Proof using.
  intros Hg. unfold sends. apply Forall_map, Forall_true. intros u. cbn [good_ev]. unfold outgoing.
  destruct (obj_kind g) as [[[]| |[]]|[]|] eqn:Ek; cbn [snd]; auto; destruct (oversized cfg g); cbn; auto.
  intros Hp. assert (obj_kind (remove_payload g) = KFrag Rev) as -> by (destruct g; exact Ek). done.
Qed.

Lemma walk_node : walk_ok cfg NI GR (Etok) (λ _, True) (λ g _, NH g) GD.
Proof using He Hsigner Hne.
  pose proof (walk_evidence cfg e Dl He Hsigner) as W. split.
  - apply (w_pre _ _ _ _ _ _ _ W).
  - apply (w_tok _ _ _ _ _ _ _ W).
  - done.
  - apply (w_D _ _ _ _ _ _ _ W).
  - intros s g k Hk HI HH Hv Ho Hd. destruct (w_insert _ _ _ _ _ _ _ W s g k) as [A1 A2]; auto; [apply HI|by apply NH_EH|].
    split; [|done]. apply (NI_frame s _ [EvStored g]); [done|done|unfold inserted; by autorewrite with gst|by constructor|unfold inserted; by autorewrite with gst].
  - intros s g f HI HH Hv Ho. destruct (w_full _ _ _ _ _ _ _ W s g f) as [A1 A2]; auto; [apply HI|by apply NH_EH|].
    split; [|done]. apply (NI_frame s _ [EvStored g]); [done|done|unfold inserted; by autorewrite with gst|by constructor|unfold inserted; by autorewrite with gst].
  - intros s g HI HH HD Hv Hk. apply NI_still; auto; [|by autorewrite with gst..].
    apply (w_black _ _ _ _ _ _ _ W s g); auto; [apply HI|by apply NH_EH].
  - intros s HI. apply NI_still; auto; [apply (w_conv _ _ _ _ _ _ _ W), HI|by autorewrite with gst..].
  - intros s HI. apply NI_still; auto; [apply (w_conv_init _ _ _ _ _ _ _ W), HI|by autorewrite with gst..].
  - intros s g HI HH Hv Hk. destruct (w_payload _ _ _ _ _ _ _ W s g) as [A1 A2]; auto; [apply HI|by apply NH_EH|].
    split; [|done]. destruct HI as (I1 & I2 & I3). split_and!; auto.
    + by autorewrite with gst.
    + intros i o. autorewrite with gst. rewrite lookup_insert_Some. intros [[_ <-]|[_ Hi]]; eauto.
  - intros s g f HI HH Hk. apply (NI_frame s _ [EvBefore (get_id g) (length (get_object_list s (get_id g) f))]); auto.
    + apply (w_reads _ _ _ _ _ _ _ W s g f); auto; [apply HI|by apply NH_EH].
    + unfold read_and_store. cbn [fst]. autorewrite with gst. destruct (Nat.ltb _ _); by autorewrite with gst.
    + by constructor.
    + unfold read_and_store. cbn [fst]. autorewrite with gst. destruct (Nat.ltb _ _); by autorewrite with gst.
  - intros s g k HI HH HD Hv Ho Hk. destruct (w_send _ _ _ _ _ _ _ W s g k) as [A1 A2]; auto; [apply HI|by apply NH_EH|].
    split.
    + apply (NI_frame s _ (sends cfg g)); [done|done|by autorewrite with gst|by apply sends_good|by autorewrite with gst].
    + apply (NI_frame s _ [ToMonitor (gc_owner cfg) g]); [done|done|by autorewrite with gst|by constructor|by autorewrite with gst].
  - intros s g f HI HH Hk. apply (NI_frame s _ (sends cfg g)); [done| |by autorewrite with gst|by apply sends_good|by autorewrite with gst].
    apply (w_send_frag _ _ _ _ _ _ _ W s g f); auto; [apply HI|by apply NH_EH].
  - intros s g f HI HH Hk. apply (NI_frame s _ [ToMonitor (gc_owner cfg) g]); [done| |by autorewrite with gst|by constructor|by autorewrite with gst].
    apply (w_send_full _ _ _ _ _ _ _ W s g f); auto; [apply HI|by apply NH_EH].
  - intros s g f HI HH HD Hv Hk Hf. apply (w_later _ _ _ _ _ _ _ W s g f); auto; [apply HI|by apply NH_EH].
  - intros s0 s g sf Ht I0 Hb HR HI Hs. cbn zeta.
    destruct (w_sign_timer _ _ _ _ _ _ _ W s0 s g sf) as [A1 A2]; auto; [apply I0|apply HI|].
    split; [apply (NI_frame s _ [EvSigned g (frag_of cfg g (sigfrag_string sf))]); [done|done|by autorewrite with gst|by constructor|by autorewrite with gst]|].
    destruct Ht as [_ (f & Hf & Hk)]. intros _. rewrite (frag_of_kind cfg g _ f Hk). by destruct f.
  - intros s0 s g sf HH HD Hv Hk I0 Hb HR HI Hs. cbn zeta.
    destruct (w_sign_acc _ _ _ _ _ _ _ W s0 s g sf) as [A1 A2]; auto; [by apply NH_EH|apply I0|apply HI|].
    split; [apply (NI_frame s _ [EvSigned g (frag_of cfg g (sigfrag_string sf))]); [done|done|by autorewrite with gst|by constructor|by autorewrite with gst]|].
    intros Hp. assert (g_p0 g = e) as Hp' by (destruct g; exact Hp). specialize (HH Hp'). by rewrite Hk in HH.
  - intros s0 s g f Hf Hk I0 HH Hm HR HI now Hp.
    pose proof (w_mal _ _ _ _ _ _ _ W s0 s g f Hf Hk (proj1 I0) (NH_EH g s0 HH) Hm HR (proj1 HI) now Hp) as N.
    rewrite con_kind in N |- *.
    destruct (get_object_cases cfg s (get_id g) (OInit f) (proj1 (proj1 HI))) as [E|(o & E & Ho & Hv & Hi & Ht)]; rewrite E in *.
    { cbn in Hp. by rewrite <- Hp in Hne. }
    cbn in Hp. assert (g_p0 g = e) as Hg by (injection Hi as _ _ Hi; congruence).
    specialize (HH Hg). rewrite Hk in HH. assert (Dl g) as Hgd by (by destruct f). clear HH.
    pose proof (statement_of g f Hf Hk) as Hst.
    assert (is_malicious s0 g = bool_decide (g_signer g = g_signer (get_object s0 (get_id g) (OInit f))) &&
              negb (same_sig g (get_object s0 (get_id g) (OInit f)))) as Em.
    { unfold is_malicious. rewrite Hk. destruct f; done. }
    rewrite Em in Hm. apply andb_true_iff in Hm as [M1 M2]. apply bool_decide_eq_true in M1.
    destruct (get_object_cases cfg s0 (get_id g) (OInit f) (proj1 (proj1 I0))) as [E0|(o0 & E0 & Ho0 & Hv0 & Hi0 & Ht0)]; rewrite E0 in *.
    + by apply (Hsigner g).
    + assert (Dl o0) as Hd0. { destruct I0 as ((_ & _ & I3 & _) & _). eapply I3; [exact Hf|exact Ho0|]. injection Hi0 as _ _ ->. done. }
      destruct (proj2 He g o0) as [S1 S2]; auto. unfold same_sig in M2. rewrite S1, S2, !bool_decide_eq_true_2 in M2 by done. done.
  - intros s0 s s' g f l g0 ts Hk I0 HH HT HR HI Hl Ha Hh HR' HI' period stamp Hp. cbn zeta.
    destruct (w_fullgen _ _ _ _ _ _ _ W s0 s s' g f l g0 ts) with (period := period) (stamp := stamp) as [A1 A2]; auto;
      [apply I0|by apply NH_EH|apply HI|apply HI'|].
    split.
    { eapply NI_frame; [exact HI'|exact A1|by autorewrite with gst|by constructor|by autorewrite with gst]. }
    intros Hp'. cbn in Hp'. unfold obj_kind. cbn [g_type full_of]. rewrite (target_kind g f Hk).
    destruct f; try done. destruct HI as ((H3 & _ & _ & I4) & _). destruct H3 as (_ & _ & H3 & _).
    subst l. unfold get_object_list, frags_at in Hh. destruct (get_frags s Acc !! get_id g) as [l|] eqn:E; [|done].
    apply (I4 _ _ E). rewrite <- Hp'. destruct l as [|x l]; [done|]. injection Hh as ->.
    destruct (proj2 (H3 _ _ _ E) g0) as [Hi _]; [by left|]. by rewrite <- Hi.
  - done.
  - done.
  - done.
Qed.

Definition node_ok (y : gpool) : Prop := pool_ok NI GR Etok (λ _, True) y.

Lemma NI_init a b d : NI (init_gst a b d).
Proof using.
  clear. split; [|split].
  - split_and!; [apply GI_init|cbn; set_solver|..].
    + intros f i o _. destruct f; cbn; by rewrite lookup_empty.
    + intros i l. cbn. by rewrite lookup_empty.
  - by constructor.
  - intros i o. cbn. by rewrite lookup_empty.
Qed.

(** What may be started at the gossiper. *)
Inductive nreq : gprog unit -> Prop :=
| nr_obj n g : NH g -> nreq (object_handler cfg n g)
| nr_note n : nreq (notification_handler cfg n)
| nr_req n : nreq (request_handler n)
| nr_period : nreq periodic.

Lemma nreq_safe p s : nreq p -> NI s -> safe NI GR Etok (λ _, True) (λ _ _, True) p s.
Proof using He Hsigner Hne.
  intros Hp HI. pose proof walk_node as W. destruct Hp as [n g Hg|n|n|].
  - eapply s_object; [exact W|exact Hg|].
    intros s1 I1 _ Hk Hp. assert (obj_kind (reconstruct_payload s1 g) = KFrag Rev) as -> by (destruct g; exact Hk). done.
  - eapply s_notification; [exact W|]. intros s1 url ep nn I1. eapply NI_frame; [exact I1| |by autorewrite with gst|by constructor|by autorewrite with gst].
    apply (EI_frame cfg e Dl s1); [apply I1| |intros; by autorewrite with gst..]. apply GI_trace1; [done..|apply I1].
  - eapply s_request; [exact W|]. intros s0 s1 i o url I0 Ho HR I1.
    eapply NI_frame; [exact I1| |by autorewrite with gst| |by autorewrite with gst].
    + apply (EI_frame cfg e Dl s1); [apply I1| |intros; by autorewrite with gst..].
      apply GI_trace1; [done| |apply I1]. cbn. right.
      destruct I0 as (((_ & H2 & _) & _) & _). apply H2 in Ho as (Hv & _ & Ht). split; [done|]. right. by left.
    + constructor; [|done]. cbn. by eapply (proj2 (proj2 I0)).
  - eapply s_periodic; [exact W|..].
    + intros s1 x I1. apply NI_still; auto; [|by autorewrite with gst..].
      apply (EI_frame cfg e Dl s1); [apply I1|apply GI_frame; [..|apply I1]|..]; intros; by autorewrite with gst.
    + intros s1 I1. pose proof I1 as ((J1 & J2 & J3 & J4) & J5 & J6). split; [split_and!|].
      * split_and!.
        -- by apply GI_replace.
        -- by autorewrite with gst.
        -- intros f i o Hf. autorewrite with gst. by rewrite lookup_empty.
        -- intros i l. autorewrite with gst. by rewrite lookup_empty.
      * autorewrite with gst. apply Forall_app. split; [done|by constructor].
      * intros i o. autorewrite with gst. by rewrite lookup_empty.
      * unfold GR. autorewrite with gst. by apply prefix_app_r.
    + intros s0 s1 I0 HR I1. destruct (GI_restore cfg s0 s1 (proj1 (proj1 I0)) (proj1 (proj1 I1))) as [A1 A2].
      apply NI_still; auto; [|by autorewrite with gst..].
      apply (EI_frame cfg e Dl s1); [apply I1|done|..]; intros; autorewrite with gst; auto. by rewrite get_tbl_set_tbl, decide_False.
    + intros s1 I1. apply NI_still; auto; [|by autorewrite with gst..].
      split; [|unfold GR; by autorewrite with gst]. destruct I1 as ((J1 & J2 & J3 & J4) & _). split_and!.
      * apply GI_frame with (s := s1); auto; intros; by autorewrite with gst.
      * autorewrite with gst. set_solver.
      * intros f i o Hf. autorewrite with gst. by apply J3.
      * intros i l. autorewrite with gst. apply J4.
    + intros s0 s1 I0 HR I1. apply NI_still; auto; [|by autorewrite with gst..].
      split; [|unfold GR; by autorewrite with gst]. destruct I1 as ((J1 & J2 & J3 & J4) & _). split_and!.
      * apply GI_frame with (s := s1); auto; intros; by autorewrite with gst.
      * autorewrite with gst. apply I0.
      * intros f i o Hf. autorewrite with gst. by apply J3.
      * intros i l. autorewrite with gst. apply J4.
Qed.

Lemma node_pstep y y' : pstep (start_task cfg) nreq clock_step y y' -> node_ok y -> node_ok y'.
Proof using He Hsigner Hne.
  intros Hs Hy. pose proof walk_node as W. unfold node_ok in *.
  eapply pool_step; [| | | | |exact Hs|exact Hy].
  - apply (w_pre _ _ _ _ _ _ _ W).
  - apply (w_tok _ _ _ _ _ _ _ W).
  - intros t s Ht. by eapply s_start; [exact W|].
  - apply nreq_safe.
  - intros s s' (p & sec & st & ->) HI. apply NI_still; auto; [|by autorewrite with gst..].
    apply (EI_frame cfg e Dl s); [apply HI|apply GI_frame; [..|apply HI]|..]; intros; by autorewrite with gst.
Qed.

Lemma node_thread i y : node_ok y -> node_ok (thread_step i y).
Proof using He Hsigner Hne.
  intros Hy. destruct (thread_pstep (start_task cfg) nreq clock_step i y) as [->|Hs]; [done|]. by eapply node_pstep.
Qed.

Lemma node_start i y : node_ok y -> node_ok (task_start (start_task cfg) i y).
Proof using He Hsigner Hne.
  intros Hy. unfold task_start. destruct (p_tasks y !! i) as [t|] eqn:E; [|done].
  eapply node_pstep; [|exact Hy]. destruct y as [s l ts cr]. cbn in *.
  apply list_mid in E as (l1 & l2 & -> & ->). rewrite delete_mid. apply step_start.
Qed.

Lemma node_add q y : nreq q -> node_ok y -> node_ok (thread_add q y).
Proof using He Hsigner Hne.
  intros Hq Hy. eapply node_pstep; [|exact Hy]. destruct y as [s l ts cr]. by apply step_req.
Qed.

Lemma node_tick p sec st y : node_ok y -> node_ok (mkpool (set_clock (p_st y) p sec st) (p_threads y) (p_tasks y) (p_crashes y)).
Proof using He Hsigner Hne.
  intros Hy. eapply node_pstep; [|exact Hy]. destruct y as [s l ts cr]. apply step_env. by exists p, sec, st.
Qed.
End node.
