(** One gossiper facing two versions of a statement. *)
From Verif Require Import Bytes Hex Json Types Crypto Verify Prog Gossiper Network SpecVerify SpecGossiper SpecNetwork SpecDetect ProgFacts GstFacts CodecFacts CryptoFacts VerifyFacts GWalk GossiperInv GossiperSeq GossiperEvidence GossiperStep GossiperSeqInv GossiperConflict.
From Coq Require Import Lia.
Open Scope string_scope.

(** Not an accusation. *)
Definition plain_kind (k : kind) : Prop :=
  match k with KObj (OInit Acc) | KFrag Acc | KObj (OFull Acc) => False | _ => True end.

Lemma plain_type g : g_type g ∉ [ACC_INIT; ACC_FRAG; ACC_FULL] <-> plain_kind (obj_kind g).
Proof.
  rewrite !not_elem_of_cons. pose proof (kind_of_spec (g_type g)) as S. fold (obj_kind g) in S. split.
  - intros (H1 & H2 & H3 & _). destruct (obj_kind g) as [[[]| |[]]|[]|]; cbn in *; auto.
  - intros H. split_and!; [..|apply not_elem_of_nil]; intros E; unfold obj_kind in *; rewrite E in H; done.
Qed.

Section node.
Context {P : prims} (cfgs : gmap string (gconf P)) (a : gobj) (Ha : statement a).
Context (c : gconf P).
Notation cc := (gc_crypto c).
Notation T := (cc_threshold cc).
Notation e := (g_p0 a).
Notation harmless := (harmless cfgs a).

Definition af : fam := if decide (g_type a = STH_INIT) then Sth else Rev.
Lemma af_kind : af <> Acc /\ obj_kind a = KObj (OInit af).
Proof using Ha.
  unfold af, obj_kind. destruct (decide (g_type a = STH_INIT)) as [E|E]; [by rewrite E|].
  destruct Ha as [?|E']; [done|]. by rewrite E'.
Qed.

Lemma same_kind g : get_id g = get_id a -> obj_kind g = KObj (OInit af).
Proof using Ha. intros Hi. injection Hi as _ Ht _. unfold obj_kind. rewrite Ht. apply af_kind. Qed.

Lemma harmless_other g : plain_kind (obj_kind g) -> obj_kind g <> KObj (OInit af) -> harmless g.
Proof using Ha. intros H1 H2 _. split; [by apply plain_type|]. intros Hi. by apply same_kind in Hi. Qed.

Lemma harmless_plain g : harmless g -> g_p0 g = e -> plain_kind (obj_kind g).
Proof using. intros H Hp. by apply plain_type, H. Qed.

(** ** What is stored and sent is harmless *)
Definition good_msg (ep : string) (m : gmsg) : Prop := match m with MObj g => harmless g | MNote _ => ep ∉ object_paths end.

Definition DI (s : gst) : Prop :=
  GI c s /\
  (forall i o, t_payload s !! i = Some o -> harmless o) /\
  (forall k i o, get_tbl s k !! i = Some o -> harmless o) /\
  (forall u ep m, ToGossiper u ep m ∈ t_trace s -> good_msg ep m) /\
  (forall i l, get_frags s Acc !! i = Some l -> i_entity i <> e).
Definition DH (g : gobj) (s : gst) : Prop := harmless g.

Lemma DI_frame s s' : DI s -> GI c s' /\ GR s s' -> t_payload s' = t_payload s ->
  (forall k, get_tbl s' k = get_tbl s k) -> (forall f, get_frags s' f = get_frags s f) ->
  (forall u ep m, ToGossiper u ep m ∈ t_trace s' -> ToGossiper u ep m ∈ t_trace s \/ good_msg ep m) -> keeps DI GR s s'.
Proof using.
  intros (I1 & I2 & I3 & I4 & I5) [H1 H2] E0 E1 E2 E3. split; [|done]. split_and!; auto.
  - intros i o. rewrite E0. apply I2.
  - intros k i o. rewrite E1. apply I3.
  - intros u ep g Hg. destruct (E3 u ep g Hg) as [Hg'|Hg']; [by eapply I4|done].
  - intros i l. rewrite E2. apply I5.
Qed.

Lemma note_path : "/gossip/new_payload_notification" ∉ object_paths /\ "/gossip/new_payload_request" ∉ object_paths.
Proof using. split; apply (bool_decide_unpack _); reflexivity. Qed.

Lemma sent_harmless g : harmless g -> forall u ep m, ToGossiper u ep m ∈ sends c g -> good_msg ep m.
Proof using Ha.
  intros Hg u ep m Ho. unfold sends in Ho. apply elem_of_list_fmap in Ho as (v & Ev & _). injection Ev as _ Ep Em.
  destruct (decide (obj_kind g = KFrag Rev)) as [Ek|Ek].
  - assert (exists o, m = MObj o /\ obj_kind o = KFrag Rev) as (o & -> & Hk).
    { unfold outgoing in Em. rewrite Ek in Em. cbn in Em. eexists. split; [exact Em|]. destruct (oversized c g); [|done]. by destruct g. }
    apply harmless_other; rewrite Hk; done.
  - assert ((exists n, m = MNote n) \/ exists o, m = MObj o) as [[n ->]|[o ->]] by (destruct m; eauto).
    + cbn. subst ep. unfold outgoing in *. destruct (obj_kind g) as [[[]| |]|[]|]; try done. destruct (oversized c g); [|done]. apply note_path.
    + cbn. unfold outgoing in Em. destruct (obj_kind g) as [[[]| |]|[]|] eqn:Ek'; cbn in Em; try done; try (injection Em as ->; exact Hg). destruct (oversized c g); [done|]. injection Em as ->. exact Hg.
Qed.

Ltac old := intros; left; unfold inserted in *; autorewrite with gst in *; assumption.

Lemma walk_harmless : walk_ok c DI GR Etok (λ _, True) DH GD.
Proof using Ha.
  pose proof (walk_GI c) as W. split.
  - apply (w_pre _ _ _ _ _ _ _ W).
  - intros t s s' [H1 H2] HR. split; [|done]. by eapply (w_tok _ _ _ _ _ _ _ W).
  - done.
  - apply (w_D _ _ _ _ _ _ _ W).
  - intros s g k Hk HI HH Hv Ho Hd. destruct (w_insert _ _ _ _ _ _ _ W s g k) as [[A1 A1'] A2]; auto; [apply HI|].
    split; [|done]. split; [|done]. destruct HI as (I1 & I2 & I3 & I4 & I5). unfold inserted in *. split_and!; auto.
    + intros i o. autorewrite with gst. apply I2.
    + intros k' i o. autorewrite with gst. rewrite get_tbl_set_tbl. destruct (decide _) as [->|]; [|by apply I3].
      rewrite lookup_insert_Some. intros [[_ <-]|[_ Hi]]; [done|by eapply I3].
    + intros u ep g'. autorewrite with gst. rewrite elem_of_app, elem_of_list_singleton. intros [Hg|Hg]; [by eapply I4|done].
    + intros i l. autorewrite with gst. apply I5.
  - intros s g f HI HH Hv Ho. destruct (w_full _ _ _ _ _ _ _ W s g f) as [[A1 A1'] A2]; auto; [apply HI|].
    split; [|done]. split; [|done]. destruct HI as (I1 & I2 & I3 & I4 & I5). unfold inserted in *. split_and!; auto.
    + intros i o. autorewrite with gst. apply I2.
    + intros k' i o. autorewrite with gst. rewrite get_tbl_set_tbl. destruct (decide _) as [->|]; [|by apply I3].
      rewrite lookup_insert_Some. intros [[_ <-]|[_ Hi]]; [done|by eapply I3].
    + intros u ep g'. autorewrite with gst. rewrite elem_of_app, elem_of_list_singleton. intros [Hg|Hg]; [by eapply I4|done].
    + intros i l. autorewrite with gst. apply I5.
  - intros s g HI HH HD Hv Hk. apply (DI_frame s); auto; [apply (w_black _ _ _ _ _ _ _ W); auto; apply HI|..]; try (intros; by autorewrite with gst). old.
  - intros s HI. apply (DI_frame s); auto; [by apply (w_conv _ _ _ _ _ _ _ W), HI|..]; try (intros; by autorewrite with gst). old.
  - intros s HI. apply (DI_frame s); auto; [by apply (w_conv_init _ _ _ _ _ _ _ W), HI|..]; try (intros; by autorewrite with gst). old.
  - intros s g HI HH Hv Hk. destruct (w_payload _ _ _ _ _ _ _ W s g) as [A1 A2]; auto; [apply HI|]. split; [|done].
    destruct HI as (I1 & I2 & I3 & I4 & I5). split_and!; auto.
    + intros i o. autorewrite with gst. rewrite lookup_insert_Some. intros [[_ <-]|[_ Hi]]; [done|by eapply I2].
    + intros k i o. autorewrite with gst. apply I3.
    + intros u ep g'. autorewrite with gst. apply I4.
    + intros i l. autorewrite with gst. apply I5.
  - intros s g f HI HH Hk. destruct (w_reads _ _ _ _ _ _ _ W s g f) as [A1 A2]; auto; [apply HI|].
    split; [|done]. destruct HI as (I1 & I2 & I3 & I4 & I5). unfold read_and_store in *. cbn [fst] in *. split_and!; auto.
    + intros i o. autorewrite with gst. destruct (Nat.ltb _ _); autorewrite with gst; apply I2.
    + intros k i o. autorewrite with gst. destruct (Nat.ltb _ _); autorewrite with gst; by apply I3.
    + intros u ep g'. autorewrite with gst. rewrite elem_of_app, elem_of_list_singleton. intros [Hg|Hg]; [|done].
      destruct (Nat.ltb _ _); autorewrite with gst in Hg; by eapply I4.
    + intros i l. autorewrite with gst. destruct (Nat.ltb _ _); [|apply I5]. rewrite get_frags_set_frags.
      destruct (decide (f = Acc)) as [->|]; [|apply I5]. rewrite lookup_insert_Some. intros [[<- _]|[_ Hi]]; [|by eapply I5].
      cbn. intros Hp. pose proof (harmless_plain g HH Hp) as Hq. by rewrite Hk in Hq.
  - intros s g k HI HH HD Hv Ho Hk. destruct (w_send _ _ _ _ _ _ _ W s g k) as [A1 A2]; auto; [apply HI|].
    split; (apply (DI_frame s); auto; try (intros; by autorewrite with gst)); intros u ep g'; autorewrite with gst; rewrite elem_of_app; intros [Hg|Hg]; auto.
    + right. by eapply sent_harmless.
    + by apply elem_of_list_singleton in Hg.
  - intros s g f HI HH Hk. apply (DI_frame s); auto; [by eapply (w_send_frag _ _ _ _ _ _ _ W); [apply HI|..]|..]; try (intros; by autorewrite with gst).
    intros u ep g'; autorewrite with gst; rewrite elem_of_app; intros [Hg|Hg]; auto. right. by eapply sent_harmless.
  - intros s g f HI HH Hk. apply (DI_frame s); auto; [by eapply (w_send_full _ _ _ _ _ _ _ W); [apply HI|..]|..]; try (intros; by autorewrite with gst).
    intros u ep g'; autorewrite with gst; rewrite elem_of_app; intros [Hg|Hg]; auto. by apply elem_of_list_singleton in Hg.
  - intros s g f HI HH HD Hv Hk Hf. split; [|eauto]. eapply (w_later _ _ _ _ _ _ _ W); eauto. apply HI.
  - intros s0 s g sf [Ht (f & Hf & Hk)] I0 Hb HR HI Hs. cbn zeta.
    destruct (w_sign_timer _ _ _ _ _ _ _ W s0 s g sf) as [A1 A2]; auto; [apply I0|apply HI|].
    split.
    + apply (DI_frame s); auto; try (intros; by autorewrite with gst).
      intros u ep g'; autorewrite with gst; rewrite elem_of_app; intros [Hg|Hg]; auto. by apply elem_of_list_singleton in Hg.
    + apply harmless_other; rewrite (frag_of_kind c g _ f Hk); by destruct f.
  - intros s0 s g sf HH HD Hv Hk I0 Hb HR HI Hs. cbn zeta.
    destruct (w_sign_acc _ _ _ _ _ _ _ W s0 s g sf) as [A1 A2]; auto; [apply I0|apply HI|].
    split.
    + apply (DI_frame s); auto; try (intros; by autorewrite with gst).
      intros u ep g'; autorewrite with gst; rewrite elem_of_app; intros [Hg|Hg]; auto. by apply elem_of_list_singleton in Hg.
    + intros Hp. exfalso. assert (g_p0 g = e) as Hp' by (destruct g; exact Hp). pose proof (harmless_plain g HH Hp') as Hq. by rewrite Hk in Hq.
  - intros s0 s g f Hf Hk I0 HH Hm HR HI now. apply harmless_other; by rewrite con_kind.
  - intros s0 s s' g f l g0 ts Hk I0 HH HT HR HI Hl Hag Hh HR' HI' period stamp Hp. cbn zeta.
    destruct (w_fullgen _ _ _ _ _ _ _ W s0 s s' g f l g0 ts) with (period := period) (stamp := stamp) as [A1 A2]; auto; [apply I0|apply HI|apply HI'|].
    split.
    + apply (DI_frame s'); auto; try (intros; by autorewrite with gst).
      intros u ep g'; autorewrite with gst; rewrite elem_of_app; intros [Hg|Hg]; auto. by apply elem_of_list_singleton in Hg.
    + assert (obj_kind (full_of period stamp l ts g0 (target_type g)) = KObj (OFull f)) as Hkf by (unfold obj_kind; cbn [g_type full_of]; by apply target_kind).
      destruct f; [by apply harmless_other; rewrite Hkf|by apply harmless_other; rewrite Hkf|].
      intros Hp'. exfalso. cbn in Hp'. destruct HI as ((_ & _ & H3 & _) & _ & _ & _ & I5).
      subst l. unfold get_object_list, frags_at in Hh. destruct (get_frags s Acc !! get_id g) as [l|] eqn:E; [|done].
      apply (I5 _ _ E). rewrite <- Hp'. destruct l as [|x l]; [done|]. injection Hh as ->.
      destruct (proj2 (H3 _ _ _ E) g0) as [Hi _]; [by left|]. by rewrite <- Hi.
  - done.
  - done.
  - done.
Qed.

(** ** Everything else leaves the entity alone *)
Definition core (g : gobj) : Prop := g_p0 g = e /\
  match obj_kind g with KObj (OInit f) => f <> Acc | KObj OCon => verify cc g = Accept | _ => False end.

Definition FH (g : gobj) (s : gst) : Prop := harmless g /\ ~ core g.
Definition FI (s0 s : gst) : Prop :=
  DI s /\ (forall f i, i_entity i = e -> get_tbl s (OInit f) !! i = get_tbl s0 (OInit f) !! i) /\ (e ∈ t_black s <-> e ∈ t_black s0).

Lemma FI_frame s0 s s' : FI s0 s -> keeps DI GR s s' -> t_black s' = t_black s ->
  (forall f, get_tbl s' (OInit f) = get_tbl s (OInit f)) -> keeps (FI s0) GR s s'.
Proof using.
  intros (I1 & I2 & I3) [H1 H2] E1 E2. split; [|done]. split_and!; auto.
  - intros f i Hi. rewrite E2. by apply I2.
  - by rewrite E1.
Qed.

Lemma walk_frame s0 : walk_ok c (FI s0) GR Etok (λ _, True) FH GD.
Proof using Ha.
  pose proof walk_harmless as W. split.
  - apply (w_pre _ _ _ _ _ _ _ W).
  - apply (w_tok _ _ _ _ _ _ _ W).
  - done.
  - apply (w_D _ _ _ _ _ _ _ W).
  - intros s g k Hk HI [HH HC] Hv Ho Hd. destruct (w_insert _ _ _ _ _ _ _ W s g k) as [[A1 A1'] A2]; auto; [apply HI|].
    split; [|done]. split; [|done]. destruct HI as (I1 & I2 & I3). unfold inserted in *. split_and!; auto.
    + intros f i Hi. autorewrite with gst. rewrite get_tbl_set_tbl. destruct (decide (k = OInit f)) as [->|]; [|by apply I2].
      rewrite lookup_insert_ne; [by apply I2|]. intros <-. apply HC. split; [done|]. rewrite Ho. intros ->.
      pose proof (harmless_plain g HH Hi) as Hq. by rewrite Ho in Hq.
    + by autorewrite with gst.
  - intros s g f HI [HH HC] Hv Ho. destruct (w_full _ _ _ _ _ _ _ W s g f) as [A1 A2]; auto; [apply HI|].
    split; [|done]. apply (FI_frame s0 s); auto; unfold inserted; intros; autorewrite with gst; auto. by rewrite get_tbl_set_tbl, decide_False.
  - intros s g HI [HH HC] HD Hv Hk. destruct (w_black _ _ _ _ _ _ _ W s g) as [A1 A2]; auto; [apply HI|].
    split; [|done]. destruct HI as (I1 & I2 & I3). split_and!; auto.
    + intros f i Hi. autorewrite with gst. by apply I2.
    + autorewrite with gst. rewrite elem_of_union, elem_of_singleton. rewrite <- I3. split; [|by right]. intros [Hp|]; [|done]. exfalso.
      symmetry in Hp. destruct Hk as [Hk|Hk]; [apply HC; split; [done|]; by rewrite Hk|].
      pose proof (harmless_plain g HH Hp) as Hq. by rewrite Hk in Hq.
  - intros s HI. apply (FI_frame s0 s); auto; [by apply (w_conv _ _ _ _ _ _ _ W), HI|..]; intros; by autorewrite with gst.
  - intros s HI. apply (FI_frame s0 s); auto; [by apply (w_conv_init _ _ _ _ _ _ _ W), HI|..]; intros; by autorewrite with gst.
  - intros s g HI [HH HC] Hv Hk. apply (FI_frame s0 s); auto; [apply (w_payload _ _ _ _ _ _ _ W); auto; apply HI|..]; intros; by autorewrite with gst.
  - intros s g f HI [HH HC] Hk. apply (FI_frame s0 s); auto; [apply (w_reads _ _ _ _ _ _ _ W); auto; apply HI|..]; intros; unfold read_and_store; cbn [fst]; autorewrite with gst;
      destruct (Nat.ltb _ _); by autorewrite with gst.
  - intros s g k HI [HH HC] HD Hv Ho Hk. destruct (w_send _ _ _ _ _ _ _ W s g k) as [A1 A2]; auto; [apply HI|].
    split; (apply (FI_frame s0 s); auto; intros; by autorewrite with gst).
  - intros s g f HI [HH HC] Hk. apply (FI_frame s0 s); auto; [by eapply (w_send_frag _ _ _ _ _ _ _ W); [apply HI|..]|..]; intros; by autorewrite with gst.
  - intros s g f HI [HH HC] Hk. apply (FI_frame s0 s); auto; [by eapply (w_send_full _ _ _ _ _ _ _ W); [apply HI|..]|..]; intros; by autorewrite with gst.
  - intros s g f HI [HH HC] HD Hv Hk Hf. eapply (w_later _ _ _ _ _ _ _ W); eauto. apply HI.
  - intros s1 s g sf Ht I0 Hb HR HI Hs. cbn zeta. pose proof Ht as [_ (f & Hf & Hk)].
    destruct (w_sign_timer _ _ _ _ _ _ _ W s1 s g sf) as [A1 A2]; auto; [apply I0|apply HI|].
    split; [apply (FI_frame s0 s); auto; intros; by autorewrite with gst|]. split; [done|].
    intros [_ Hc]. by rewrite (frag_of_kind c g _ f Hk) in Hc.
  - intros s1 s g sf [HH HC] HD Hv Hk I0 Hb HR HI Hs. cbn zeta.
    destruct (w_sign_acc _ _ _ _ _ _ _ W s1 s g sf) as [A1 A2]; auto; [apply I0|apply HI|].
    split; [apply (FI_frame s0 s); auto; intros; by autorewrite with gst|]. split; [done|].
    intros [_ Hc]. by rewrite (frag_of_kind c g _ Acc Hk) in Hc.
  - intros s1 s g f Hf Hk I0 [HH HC] Hm HR HI now. split; [by eapply (w_mal _ _ _ _ _ _ _ W s1); eauto; [apply I0|apply HI]|].
    intros [Hp Hc]. rewrite con_kind in Hc.
    destruct (get_object_cases c s (get_id g) (OInit f) (proj1 (proj1 HI))) as [E|(o & E & Ho & Hv & Hi & Ht)]; rewrite E in *.
    { by apply con_zero_rejected in Hc. }
    cbn in Hp. apply HC. split; [injection Hi as _ _ Hi; congruence|]. by rewrite Hk.
  - intros s1 s s' g f l g0 ts Hk I0 [HH HC] HT HR HI Hl Hag Hh HR' HI' period stamp Hp. cbn zeta.
    destruct (w_fullgen _ _ _ _ _ _ _ W s1 s s' g f l g0 ts) with (period := period) (stamp := stamp) as [A1 A2]; auto; [apply I0|apply HI|apply HI'|].
    split; [apply (FI_frame s0 s'); auto; intros; by autorewrite with gst|]. split; [done|].
    intros [_ Hc]. unfold obj_kind in Hc. cbn [g_type full_of] in Hc. by rewrite (target_kind g f Hk) in Hc.
  - done.
  - done.
  - done.
Qed.
End node.
