(** Without evidence nobody is blacklisted, under every interleaving. *)
From Verif Require Import Bytes Hex Json Types Crypto Verify Prog Gossiper SpecVerify SpecGossiper ProgFacts GstFacts CodecFacts CryptoFacts VerifyFacts GWalk GossiperInv GossiperSeq.
From Coq Require Import Lia.
Open Scope string_scope.

Section evidence.
Context {P : prims} (cfg : gconf P).
Notation cc := (gc_crypto cfg).
Notation T := (cc_threshold cc).

Lemma con_zero_rejected now g : verify cc (generate_con now zero_obj g) <> Accept.
Proof. unfold verify. rewrite con_kind. unfold verify_con, generate_con. cbn [g_s0]. done. Qed.

(** A stored object, or the zero object. *)
Lemma get_object_cases s i k : GI cfg s ->
  get_object s i k = zero_obj \/ exists o, get_object s i k = o /\ get_tbl s k !! i = Some o /\ verify cc o = Accept /\ get_id o = i /\ g_type o = okind_type k.
Proof.
  intros (H1 & _). unfold get_object, obj_at. destruct (get_tbl s k !! i) as [o|] eqn:E; [|by left].
  right. exists o. split_and!; auto; by apply (H1 k i o).
Qed.

Context (e : string) (Dl : gobj -> Prop).
Context (He : no_evidence e Dl).
Context (Hsigner : forall g, Dl g -> g_p0 g = e -> statement g -> g_signer g <> "").

(** What may be handled. *)
Definition EH (g : gobj) (s : gst) : Prop := g_p0 g = e ->
  match obj_kind g with
  | KObj (OInit Acc) | KFrag Acc => False
  | KObj (OInit _) => Dl g
  | KObj OCon | KObj (OFull Acc) => verify cc g <> Accept
  | _ => True
  end.

Definition EI (s : gst) : Prop :=
  GI cfg s /\ e ∉ t_black s /\
  (forall f i o, f <> Acc -> get_tbl s (OInit f) !! i = Some o -> g_p0 o = e -> Dl o) /\
  (forall i l, get_frags s Acc !! i = Some l -> i_entity i <> e).

Definition Etok (t : gtask) (s : gst) : Prop :=
  Gtok t s /\ match t with SignLater g => exists f, f <> Acc /\ obj_kind g = KObj (OInit f) end.

Lemma EI_frame s s' : EI s -> GI cfg s' /\ GR s s' -> t_black s' = t_black s ->
  (forall f, get_tbl s' (OInit f) = get_tbl s (OInit f)) -> (forall f, get_frags s' f = get_frags s f) -> keeps EI GR s s'.
Proof using.
  clear. intros (I1 & I2 & I3 & I4) [H1 H2] E1 E2 E3. split; [|done]. split_and!; auto.
  - by rewrite E1.
  - intros f i o Hf. rewrite E2. by apply I3.
  - intros i l. rewrite E3. apply I4.
Qed.

Lemma statement_of g f : f <> Acc -> obj_kind g = KObj (OInit f) -> statement g.
Proof using. clear. intros Hf Hk. apply obj_kind_obj in Hk. unfold statement. rewrite Hk. destruct f; cbn; auto. done. Qed.

Lemma walk_evidence : walk_ok cfg EI GR Etok (λ _, True) EH GD.
Proof using He Hsigner.
  pose proof (walk_GI cfg) as W. split.
  - apply (w_pre _ _ _ _ _ _ _ W).
  - intros t s s' [H1 H2] HR. split; [|done]. by eapply (w_tok _ _ _ _ _ _ _ W).
  - done.
  - apply (w_D _ _ _ _ _ _ _ W).
  - intros s g k Hk HI HH Hv Ho Hd. destruct (w_insert _ _ _ _ _ _ _ W s g k) as [[A1 A1'] A2]; auto; [apply HI|].
    split; [|done]. split; [|done]. destruct HI as (I1 & I2 & I3 & I4). unfold inserted in *. split_and!; auto.
    + by autorewrite with gst.
    + intros f i o Hf. autorewrite with gst. rewrite get_tbl_set_tbl. destruct (decide (k = OInit f)) as [->|]; [|by apply I3].
      rewrite lookup_insert_Some. intros [[<- <-]|[_ Hi]] Hp; [|by eapply I3].
      specialize (HH Hp). rewrite Ho in HH. destruct f; done.
    + intros i l. autorewrite with gst. apply I4.
  - intros s g f HI HH Hv Ho. destruct (w_full _ _ _ _ _ _ _ W s g f) as [A1 A2]; auto; [apply HI|].
    split; [|done]. apply (EI_frame s); auto; unfold inserted; intros; autorewrite with gst; auto.
    rewrite get_tbl_set_tbl. by rewrite decide_False.
  - intros s g HI HH HD Hv Hk. destruct (w_black _ _ _ _ _ _ _ W s g) as [A1 A2]; auto; [apply HI|].
    split; [|done]. destruct HI as (I1 & I2 & I3 & I4). split_and!; auto.
    + autorewrite with gst. rewrite elem_of_union, elem_of_singleton. intros [Hp|]; [|done].
      symmetry in Hp. specialize (HH Hp). destruct Hk as [Hk|Hk]; rewrite Hk in HH; done.
    + intros f i o Hf. autorewrite with gst. by apply I3.
    + intros i l. autorewrite with gst. apply I4.
  - intros s HI. apply (EI_frame s); auto; [by apply (w_conv _ _ _ _ _ _ _ W), HI|..]; intros; by autorewrite with gst.
  - intros s HI. apply (EI_frame s); auto; [by apply (w_conv_init _ _ _ _ _ _ _ W), HI|..]; intros; by autorewrite with gst.
  - intros s g HI HH Hv Hk. apply (EI_frame s); auto; [apply (w_payload _ _ _ _ _ _ _ W); auto; apply HI|..]; intros; by autorewrite with gst.
  - intros s g f HI HH Hk. destruct (w_reads _ _ _ _ _ _ _ W s g f) as [A1 A2]; auto; [apply HI|].
    split; [|done]. destruct HI as (I1 & I2 & I3 & I4). unfold read_and_store in *. cbn [fst] in *. split_and!; auto.
    + autorewrite with gst. destruct (Nat.ltb _ _); by autorewrite with gst.
    + intros f' i o Hf. autorewrite with gst. destruct (Nat.ltb _ _); autorewrite with gst; by apply I3.
    + intros i l. autorewrite with gst. destruct (Nat.ltb _ _); [|apply I4]. rewrite get_frags_set_frags.
      destruct (decide (f = Acc)) as [->|]; [|apply I4]. rewrite lookup_insert_Some. intros [[<- _]|[_ Hi]]; [|by eapply I4].
      cbn. intros Hp. specialize (HH Hp). by rewrite Hk in HH.
  - intros s g k HI HH HD Hv Ho Hk. destruct (w_send _ _ _ _ _ _ _ W s g k) as [A1 A2]; auto; [apply HI|].
    split; (apply (EI_frame s); auto; intros; by autorewrite with gst).
  - intros s g f HI HH Hk. apply (EI_frame s); auto; [by eapply (w_send_frag _ _ _ _ _ _ _ W); [apply HI|..]|..]; intros; by autorewrite with gst.
  - intros s g f HI HH Hk. apply (EI_frame s); auto; [by eapply (w_send_full _ _ _ _ _ _ _ W); [apply HI|..]|..]; intros; by autorewrite with gst.
  - intros s g f HI HH HD Hv Hk Hf. split; [|eauto]. eapply (w_later _ _ _ _ _ _ _ W); eauto. apply HI.
  - intros s0 s g sf [Ht (f & Hf & Hk)] I0 Hb HR HI Hs. cbn zeta.
    destruct (w_sign_timer _ _ _ _ _ _ _ W s0 s g sf) as [A1 A2]; auto; [apply I0|apply HI|].
    split; [apply (EI_frame s); auto; intros; by autorewrite with gst|].
    intros _. rewrite (frag_of_kind cfg g _ f Hk). by destruct f.
  - intros s0 s g sf HH HD Hv Hk I0 Hb HR HI Hs. cbn zeta.
    destruct (w_sign_acc _ _ _ _ _ _ _ W s0 s g sf) as [A1 A2]; auto; [apply I0|apply HI|].
    split; [apply (EI_frame s); auto; intros; by autorewrite with gst|].
    intros Hp. exfalso. assert (g_p0 g = e) as Hp' by (destruct g; exact Hp). specialize (HH Hp'). by rewrite Hk in HH.
  - intros s0 s g f Hf Hk I0 HH Hm HR HI now Hp. rewrite con_kind.
    destruct (get_object_cases s (get_id g) (OInit f) (proj1 HI)) as [E|(o & E & Ho & Hv & Hi & Ht)]; rewrite E in *.
    { apply con_zero_rejected. }
    exfalso. cbn in Hp. assert (g_p0 g = e) as Hg by (injection Hi as _ _ Hi; congruence).
    specialize (HH Hg). rewrite Hk in HH. assert (Dl g) as Hgd by (by destruct f). clear HH.
    pose proof (statement_of g f Hf Hk) as Hst.
    assert (is_malicious s0 g = bool_decide (g_signer g = g_signer (get_object s0 (get_id g) (OInit f))) &&
              negb (same_sig g (get_object s0 (get_id g) (OInit f)))) as Em.
    { unfold is_malicious. rewrite Hk. destruct f; done. }
    rewrite Em in Hm. apply andb_true_iff in Hm as [M1 M2]. apply bool_decide_eq_true in M1.
    destruct (get_object_cases s0 (get_id g) (OInit f) (proj1 I0)) as [E0|(o0 & E0 & Ho0 & Hv0 & Hi0 & Ht0)]; rewrite E0 in *.
    + by apply (Hsigner g).
    + assert (Dl o0) as Hd0. { destruct I0 as (_ & _ & I3 & _). eapply I3; [exact Hf|exact Ho0|]. injection Hi0 as _ _ ->. done. }
      destruct (proj2 He g o0) as [S1 S2]; auto. unfold same_sig in M2. rewrite S1, S2, !bool_decide_eq_true_2 in M2 by done. done.
  - intros s0 s s' g f l g0 ts Hk I0 HH HT HR HI Hl Ha Hh HR' HI' period stamp Hp. cbn zeta.
    destruct (w_fullgen _ _ _ _ _ _ _ W s0 s s' g f l g0 ts) with (period := period) (stamp := stamp) as [A1 A2]; auto; [apply I0|apply HI|apply HI'|].
    split; [apply (EI_frame s'); auto; intros; by autorewrite with gst|].
    intros Hp'. cbn in Hp'. unfold obj_kind. cbn [g_type full_of]. rewrite (target_kind g f Hk).
    destruct f; try done. exfalso. destruct HI as ((_ & _ & H3 & _) & _ & _ & I4).
    subst l. unfold get_object_list, frags_at in Hh. destruct (get_frags s Acc !! get_id g) as [l|] eqn:E; [|done].
    apply (I4 _ _ E). rewrite <- Hp'. destruct l as [|x l]; [done|]. injection Hh as ->.
    destruct (proj2 (H3 _ _ _ E) g0) as [Hi _]; [by left|]. by rewrite <- Hi.
  - done.
  - done.
  - done.
Qed.

Lemma no_evidence_pool a b d c :
  psteps (start_task cfg) (delivering cfg Dl) clock_step (init_pool a b d) c -> e ∉ t_black (p_st c).
Proof using He Hsigner.
  intros Hs. pose proof walk_evidence as W.
  assert (pool_ok EI GR Etok (λ _, True) c) as ((_ & HB & _) & _); [|done].
  eapply pool_steps; [ | | | | |exact Hs|].
  - apply (w_pre _ _ _ _ _ _ _ W).
  - apply (w_tok _ _ _ _ _ _ _ W).
  - intros t s Ht. by eapply s_start; [exact W|].
  - intros p s [Hp| ->] HI; [destruct Hp as [n g Hg|n|n]|].
    + eapply s_object; [exact W| |].
      * intros Hp. destruct (proj1 He g Hg Hp) as (N1 & N2 & N3 & N4). destruct (obj_kind g) as [[[]| |[]]|[]|] eqn:Ek; try done;
          exfalso; (apply obj_kind_obj in Ek || apply obj_kind_frag in Ek); done.
      * intros s1 I1 _ Hk Hp. assert (obj_kind (reconstruct_payload s1 g) = KFrag Rev) as -> by (destruct g; exact Hk). done.
    + eapply s_notification; [exact W|]. intros s1 url ep nn I1. apply (EI_frame s1); auto; [by apply GI_trace1; [..|apply I1]|..]; intros; by autorewrite with gst.
    + eapply s_request; [exact W|]. intros s0 s1 i o url I0 Ho HR I1.
      apply (EI_frame s1); auto; [|intros; by autorewrite with gst..].
      apply GI_trace1; [done| |apply I1]. cbn. right.
      destruct I0 as ((_ & H2 & _) & _). apply H2 in Ho as (Hv & _ & Ht). split; [done|]. right. by left.
    + pose proof (walk_GI cfg) as WG. eapply s_periodic; [exact W|..].
      * intros s1 x I1. apply (EI_frame s1); auto; [apply GI_frame; [..|apply I1]|..]; intros; by autorewrite with gst.
      * intros s1 I1. pose proof I1 as (J1 & J2 & J3 & J4). split.
        -- split_and!.
           ++ by apply GI_replace.
           ++ by autorewrite with gst.
           ++ intros f i o Hf. autorewrite with gst. by rewrite lookup_empty.
           ++ intros i l. autorewrite with gst. by rewrite lookup_empty.
        -- unfold GR. autorewrite with gst. by apply prefix_app_r.
      * intros s0 s1 I0 HR I1. destruct (GI_restore cfg s0 s1 (proj1 I0) (proj1 I1)) as [A1 A2].
        apply (EI_frame s1); auto; intros; autorewrite with gst; auto. by rewrite get_tbl_set_tbl, decide_False.
      * intros s1 I1. split; [|unfold GR; by autorewrite with gst]. destruct I1 as (J1 & J2 & J3 & J4). split_and!.
        -- apply GI_frame with (s := s1); auto; intros; by autorewrite with gst.
        -- autorewrite with gst. set_solver.
        -- intros f i o Hf. autorewrite with gst. by apply J3.
        -- intros i l. autorewrite with gst. apply J4.
      * intros s0 s1 I0 HR I1. split; [|unfold GR; by autorewrite with gst]. destruct I1 as (J1 & J2 & J3 & J4). split_and!.
        -- apply GI_frame with (s := s1); auto; intros; by autorewrite with gst.
        -- autorewrite with gst. apply I0.
        -- intros f i o Hf. autorewrite with gst. by apply J3.
        -- intros i l. autorewrite with gst. apply J4.
  - intros s s' (p & sec & st & ->) HI. apply (EI_frame s); auto; [apply GI_frame; [..|apply HI]|..]; intros; by autorewrite with gst.
  - split_and!; cbn; auto. split_and!; [apply GI_init|set_solver|..].
    + intros f i o _. destruct f; cbn; by rewrite lookup_empty.
    + intros i l. cbn. by rewrite lookup_empty.
Qed.
End evidence.
