(** One gossiper facing accusations of an entity. *)
From Verif Require Import Bytes Hex Json Types Crypto Verify Prog Gossiper Network SpecCodec SpecVerify SpecGossiper SpecNetwork SpecAccuse ProgFacts GstFacts CodecFacts CryptoFacts VerifyFacts GWalk GossiperInv GossiperSeq GossiperEvidence GossiperStep GossiperSeqInv GossiperConflict DetectNode.
From Coq Require Import Lia.
Open Scope string_scope.

Section node.
Context {P : prims} (cfgs : gmap string (gconf P)) (e p : string) (As : list gobj) (HA : accusations cfgs e p As).
Context (acd : string -> Prop) (stm : gobj -> Prop).
Context (Hstm : forall g, stm g -> g_signer g <> "" /\ forall h, stm h -> get_id h = get_id g -> (g_s0 h, g_s1 h) = (g_s0 g, g_s1 g)).
Context (u : string) (c : gconf P) (Hu : cfgs !! u = Some c) (Hself : cc_self (gc_crypto c) = u).
Notation cc := (gc_crypto c).

Definition frag_ok (o : gobj) : Prop := exists v d a, cfgs !! v = Some d /\ acd v /\ a ∈ As /\ o = fragment_by d a.

(** What may be handled here. *)
Definition fair (g : gobj) : Prop := g_p0 g = e ->
  match obj_kind g with
  | KObj (OInit Acc) => g ∈ As /\ acd u
  | KObj (OInit _) => stm g
  | KObj OCon => False
  | KFrag Acc => frag_ok g
  | _ => True
  end.

(** What may be on its way. *)
Definition passed (g : gobj) : Prop := g_p0 g = e ->
  match obj_kind g with
  | KObj (OInit Acc) | KObj OCon | KObj (OFull Acc) => False
  | KObj (OInit _) => stm g
  | KFrag Acc => frag_ok g
  | _ => True
  end.

Lemma passed_fair g : passed g -> fair g.
Proof using. intros H Hp. specialize (H Hp). destruct (obj_kind g) as [[[]| |[]]|[]|]; done. Qed.

Definition free_kind (k : kind) : Prop :=
  match k with KFrag f => f <> Acc | KObj (OFull _) => True | KUnknown => True | _ => False end.

Lemma fair_other g : free_kind (obj_kind g) -> fair g.
Proof using. intros H _. by destruct (obj_kind g) as [[[]| |[]]|[]|]. Qed.

Definition good_msg (ep : string) (m : gmsg) : Prop := match m with MObj g => passed g | MNote _ => ep ∉ object_paths end.

Definition DI (s : gst) : Prop :=
  GI c s /\
  (forall i o, t_payload s !! i = Some o -> passed o) /\
  (forall k i o, get_tbl s k !! i = Some o -> fair o) /\
  (forall w ep m, ToGossiper w ep m ∈ t_trace s -> good_msg ep m) /\
  (forall i l o, get_frags s Acc !! i = Some l -> o ∈ l -> fair o).
Definition DH (g : gobj) (s : gst) : Prop := fair g.

Lemma DI_frame s s' : DI s -> GI c s' /\ GR s s' -> t_payload s' = t_payload s ->
  (forall k, get_tbl s' k = get_tbl s k) -> (forall f, get_frags s' f = get_frags s f) ->
  (forall w ep m, ToGossiper w ep m ∈ t_trace s' -> ToGossiper w ep m ∈ t_trace s \/ good_msg ep m) -> keeps DI GR s s'.
Proof using.
  intros (I1 & I2 & I3 & I4 & I5) [H1 H2] E0 E1 E2 E3. split; [|done]. split_and!; auto.
  - intros i o. rewrite E0. apply I2.
  - intros k i o. rewrite E1. apply I3.
  - intros w ep g Hg. destruct (E3 w ep g Hg) as [Hg'|Hg']; [by eapply I4|done].
  - intros i l. rewrite E2. apply I5.
Qed.

Lemma sent_good g : fair g -> match obj_kind g with KObj (OInit Acc) | KObj (OFull _) => False | _ => True end ->
  forall w ep m, ToGossiper w ep m ∈ sends c g -> good_msg ep m.
Proof using.
  intros Hg Hkind w ep m Ho. unfold sends in Ho. apply elem_of_list_fmap in Ho as (v & Ev & _). injection Ev as _ Ep Em.
  assert (passed g) as Hpass by (intros Hp; specialize (Hg Hp); destruct (obj_kind g) as [[[]| |[]]|[]|]; done).
  destruct (decide (obj_kind g = KFrag Rev)) as [Ek|Ek].
  - assert (exists o, m = MObj o /\ obj_kind o = KFrag Rev) as (o & -> & Hk).
    { unfold outgoing in Em. rewrite Ek in Em. cbn in Em. eexists. split; [exact Em|]. destruct (oversized c g); [|done]. by destruct g. }
    intros _. by rewrite Hk.
  - assert ((exists n, m = MNote n) \/ exists o, m = MObj o) as [[n ->]|[o ->]] by (destruct m; eauto).
    + cbn. subst ep. unfold outgoing in *. destruct (obj_kind g) as [[[]| |]|[]|]; try done. destruct (oversized c g); [|done]. apply note_path.
    + cbn. unfold outgoing in Em. destruct (obj_kind g) as [[[]| |]|[]|] eqn:Ek'; cbn in Em; try done; try (injection Em as ->; exact Hpass). destruct (oversized c g); [done|]. injection Em as ->. exact Hpass.
Qed.

Ltac old := intros; left; unfold inserted in *; autorewrite with gst in *; assumption.

Lemma own_frag a sf : a ∈ As -> acd u -> cc_thr_sign cc (signed_msg a) = Some sf -> frag_ok (frag_of c a (sigfrag_string sf)).
Proof using Hu.
  intros Ha Hac Hs. exists u, c, a. split_and!; auto. unfold fragment_by. f_equal. f_equal. unfold cc_thr_sign in Hs.
  destruct (String.eqb _ _); [|done]. by injection Hs as <-.
Qed.

(** No conflict is found about the entity. *)
Lemma no_conflict s g f : DI s -> f <> Acc -> obj_kind g = KObj (OInit f) -> fair g -> g_p0 g = e -> is_malicious s g = false.
Proof using Hstm.
  intros (G & _ & I3 & _) Hf Hk Hg Hp. specialize (Hg Hp). rewrite Hk in Hg.
  assert (stm g) as Hs by (by destruct f). destruct (Hstm g Hs) as [Hne Hsame].
  assert (bool_decide (g_signer g = g_signer (get_object s (get_id g) (OInit f))) && negb (same_sig g (get_object s (get_id g) (OInit f))) = false) as Ht.
  { unfold get_object, obj_at. destruct (get_tbl s (OInit f) !! get_id g) as [o|] eqn:Eo.
    - destruct (proj1 G _ _ _ Eo) as (_ & Hi & Ht). assert (obj_kind o = KObj (OInit f)) as Hko by (by apply obj_kind_obj).
      pose proof (I3 _ _ _ Eo) as Hfo. assert (g_p0 o = e) as Hpo by (injection Hi as _ _ Hi; congruence). specialize (Hfo Hpo). rewrite Hko in Hfo.
      assert (stm o) as Hso by (by destruct f). pose proof (Hsame o Hso Hi) as Hsg.
      assert (same_sig g o = true) as ->; [|by rewrite andb_false_r]. unfold same_sig. simplify_eq. rewrite !bool_decide_eq_true_2 by congruence. done.
    - rewrite bool_decide_eq_false_2; [done|]. exact Hne. }
  unfold is_malicious. rewrite Hk. by destruct f.
Qed.

Lemma walk_fair : walk_ok c DI GR Etok (λ _, True) DH GD.
Proof using All.
  pose proof (walk_GI c) as W. split.
  - apply (w_pre _ _ _ _ _ _ _ W).
  - intros t s s' [H1 H2] HR. split; [|done]. by eapply (w_tok _ _ _ _ _ _ _ W).
  - done.
  - apply (w_D _ _ _ _ _ _ _ W).
  - intros s g k Hk HI HH Hv Ho Hd. destruct (w_insert _ _ _ _ _ _ _ W s g k) as [[A1 A1'] A2]; auto; [apply HI|].
    split; [|done]. split; [|done]. destruct HI as (I1 & I2 & I3 & I4 & I5). unfold inserted in *. split_and!; auto.
    + intros i o. autorewrite with gst. apply I2.
    + intros k' i o. autorewrite with gst. rewrite get_tbl_set_tbl. destruct (decide _) as [->|]; [|by apply I3].
      rewrite lookup_insert_Some. intros [[_ <-]|[_ Hi]]; [done|by eapply I3].
    + intros w ep g'. autorewrite with gst. rewrite elem_of_app, elem_of_list_singleton. intros [Hg|Hg]; [by eapply I4|done].
    + intros i l. autorewrite with gst. apply I5.
  - intros s g f HI HH Hv Ho. destruct (w_full _ _ _ _ _ _ _ W s g f) as [[A1 A1'] A2]; auto; [apply HI|].
    split; [|done]. split; [|done]. destruct HI as (I1 & I2 & I3 & I4 & I5). unfold inserted in *. split_and!; auto.
    + intros i o. autorewrite with gst. apply I2.
    + intros k' i o. autorewrite with gst. rewrite get_tbl_set_tbl. destruct (decide _) as [->|]; [|by apply I3].
      rewrite lookup_insert_Some. intros [[_ <-]|[_ Hi]]; [done|by eapply I3].
    + intros w ep g'. autorewrite with gst. rewrite elem_of_app, elem_of_list_singleton. intros [Hg|Hg]; [by eapply I4|done].
    + intros i l. autorewrite with gst. apply I5.
  - intros s g HI HH HD Hv Hk. apply (DI_frame s); auto; [apply (w_black _ _ _ _ _ _ _ W); auto; apply HI|..]; try (intros; by autorewrite with gst). old.
  - intros s HI. apply (DI_frame s); auto; [by apply (w_conv _ _ _ _ _ _ _ W), HI|..]; try (intros; by autorewrite with gst). old.
  - intros s HI. apply (DI_frame s); auto; [by apply (w_conv_init _ _ _ _ _ _ _ W), HI|..]; try (intros; by autorewrite with gst). old.
  - intros s g HI HH Hv Hk. destruct (w_payload _ _ _ _ _ _ _ W s g) as [A1 A2]; auto; [apply HI|]. split; [|done].
    destruct HI as (I1 & I2 & I3 & I4 & I5). split_and!; auto.
    + intros i o. autorewrite with gst. rewrite lookup_insert_Some. intros [[_ <-]|[_ Hi]]; [|by eapply I2].
      intros Hp. specialize (HH Hp). rewrite Hk in HH |- *. done.
    + intros k i o. autorewrite with gst. apply I3.
    + intros w ep g'. autorewrite with gst. apply I4.
    + intros i l. autorewrite with gst. apply I5.
  - intros s g f HI HH Hk. destruct (w_reads _ _ _ _ _ _ _ W s g f) as [A1 A2]; auto; [apply HI|].
    split; [|done]. destruct HI as (I1 & I2 & I3 & I4 & I5). unfold read_and_store in *. cbn [fst] in *. split_and!; auto.
    + intros i o. autorewrite with gst. destruct (Nat.ltb _ _); autorewrite with gst; apply I2.
    + intros k i o. autorewrite with gst. destruct (Nat.ltb _ _); autorewrite with gst; by apply I3.
    + intros w ep g'. autorewrite with gst. rewrite elem_of_app, elem_of_list_singleton. intros [Hg|Hg]; [|done].
      destruct (Nat.ltb _ _); autorewrite with gst in Hg; by eapply I4.
    + intros i l o. autorewrite with gst. destruct (Nat.ltb _ _); [|apply I5]. rewrite get_frags_set_frags.
      destruct (decide (f = Acc)) as [->|]; [|apply I5]. rewrite lookup_insert_Some. intros [[<- <-]|[_ Hi]]; [|by eapply I5].
      intros Ho. apply elem_of_app in Ho as [Ho|Ho]; [|by apply elem_of_list_singleton in Ho as ->].
      unfold get_object_list, frags_at in Ho. destruct (get_frags s Acc !! get_id g) as [l|] eqn:El; [by eapply I5|by apply elem_of_nil in Ho].
  - intros s g k HI HH HD Hv Ho Hk. destruct (w_send _ _ _ _ _ _ _ W s g k) as [A1 A2]; auto; [apply HI|].
    split; (apply (DI_frame s); auto; try (intros; by autorewrite with gst)); intros w ep g'; autorewrite with gst; rewrite elem_of_app; intros [Hg|Hg]; auto.
    + right. eapply (sent_good g); [done| |exact Hg]. rewrite Ho. by destruct Hk as [->|[->| ->]].
    + by apply elem_of_list_singleton in Hg.
  - intros s g f HI HH Hk. apply (DI_frame s); auto; [by eapply (w_send_frag _ _ _ _ _ _ _ W); [apply HI|..]|..]; try (intros; by autorewrite with gst).
    intros w ep g'; autorewrite with gst; rewrite elem_of_app; intros [Hg|Hg]; auto. right. eapply (sent_good g); [done| |exact Hg]. by rewrite Hk.
  - intros s g f HI HH Hk. apply (DI_frame s); auto; [by eapply (w_send_full _ _ _ _ _ _ _ W); [apply HI|..]|..]; try (intros; by autorewrite with gst).
    intros w ep g'; autorewrite with gst; rewrite elem_of_app; intros [Hg|Hg]; auto. by apply elem_of_list_singleton in Hg.
  - intros s g f HI HH HD Hv Hk Hf. split; [|eauto]. eapply (w_later _ _ _ _ _ _ _ W); eauto. apply HI.
  - intros s0 s g sf [Ht (f & Hf & Hk)] I0 Hb HR HI Hs. cbn zeta.
    destruct (w_sign_timer _ _ _ _ _ _ _ W s0 s g sf) as [A1 A2]; auto; [apply I0|apply HI|].
    split.
    + apply (DI_frame s); auto; try (intros; by autorewrite with gst).
      intros w ep g'; autorewrite with gst; rewrite elem_of_app; intros [Hg|Hg]; auto. by apply elem_of_list_singleton in Hg.
    + apply fair_other; by rewrite (frag_of_kind c g _ f Hk).
  - intros s0 s g sf HH HD Hv Hk I0 Hb HR HI Hs. cbn zeta.
    destruct (w_sign_acc _ _ _ _ _ _ _ W s0 s g sf) as [A1 A2]; auto; [apply I0|apply HI|].
    split.
    + apply (DI_frame s); auto; try (intros; by autorewrite with gst).
      intros w ep g'; autorewrite with gst; rewrite elem_of_app; intros [Hg|Hg]; auto. by apply elem_of_list_singleton in Hg.
    + intros Hp. rewrite (frag_of_kind c g _ Acc Hk). assert (g_p0 g = e) as Hp' by (destruct g; exact Hp).
      specialize (HH Hp'). rewrite Hk in HH. destruct HH as [Ha Hac]. by apply own_frag.
  - intros s0 s g f Hf Hk I0 HH Hm HR HI now Hp. exfalso. cbn in Hp.
    assert (g_p0 g = e) as Hpg.
    { destruct (get_object_cases c s (get_id g) (OInit f) (proj1 HI)) as [E|(o & E & Ho & Hv & Hi & Ht)]; rewrite E in Hp.
      - by destruct (ac_entity _ _ _ _ HA).
      - injection Hi as _ _ Hi. congruence. }
    rewrite (no_conflict s0 g f) in Hm; done.
  - intros s0 s s' g f l g0 ts Hk I0 HH HT HR HI Hl Hag Hh HR' HI' period stamp Hp. cbn zeta.
    destruct (w_fullgen _ _ _ _ _ _ _ W s0 s s' g f l g0 ts) with (period := period) (stamp := stamp) as [A1 A2]; auto; [apply I0|apply HI|apply HI'|].
    split.
    + apply (DI_frame s'); auto; try (intros; by autorewrite with gst).
      intros w ep g'; autorewrite with gst; rewrite elem_of_app; intros [Hg|Hg]; auto. by apply elem_of_list_singleton in Hg.
    + assert (obj_kind (full_of period stamp l ts g0 (target_type g)) = KObj (OFull f)) as Hkf by (unfold obj_kind; cbn [g_type full_of]; by apply target_kind).
      apply fair_other. by rewrite Hkf.
  - done.
  - done.
  - done.
Qed.

(** ** Everything else leaves the entity alone *)
Definition core (g : gobj) : Prop := g_p0 g = e /\
  match obj_kind g with KObj (OInit Acc) | KFrag Acc | KObj (OFull Acc) => True | _ => False end.
Definition bucket (s : gst) : list gobj := get_object_list s (mkgid p ACC_FRAG e) Acc.

Definition FH (g : gobj) (s : gst) : Prop := fair g /\ ~ core g.
Definition FI (s0 s : gst) : Prop :=
  DI s /\ bucket s = bucket s0 /\ (forall i, i_entity i = e -> get_tbl s (OFull Acc) !! i = get_tbl s0 (OFull Acc) !! i) /\
  (forall i, i_entity i = e -> get_tbl s (OInit Acc) !! i = get_tbl s0 (OInit Acc) !! i) /\ (e ∈ t_black s <-> e ∈ t_black s0).

Lemma FI_frame s0 s s' : FI s0 s -> keeps DI GR s s' -> t_black s' = t_black s ->
  (forall k, get_tbl s' k = get_tbl s k) -> (forall f, get_frags s' f = get_frags s f) -> keeps (FI s0) GR s s'.
Proof using.
  intros (I1 & I2 & I3 & I4 & I5) [H1 H2] E1 E2 E3. split; [|done]. split_and!; auto.
  - unfold bucket, get_object_list. rewrite E3. exact I2.
  - intros i Hi. rewrite E2. by apply I3.
  - intros i Hi. rewrite E2. by apply I4.
  - by rewrite E1.
Qed.

Lemma walk_rest s0 : walk_ok c (FI s0) GR Etok (λ _, True) FH GD.
Proof using All.
  pose proof walk_fair as W. split.
  - apply (w_pre _ _ _ _ _ _ _ W).
  - apply (w_tok _ _ _ _ _ _ _ W).
  - done.
  - apply (w_D _ _ _ _ _ _ _ W).
  - intros s g k Hk HI [HH HC] Hv Ho Hd. destruct (w_insert _ _ _ _ _ _ _ W s g k) as [[A1 A1'] A2]; auto; [apply HI|].
    split; [|done]. split; [|done]. destruct HI as (I1 & I2 & I3 & I4 & I5). unfold inserted in *. split_and!; auto.
    + unfold bucket, get_object_list in *. by autorewrite with gst.
    + intros i Hi. autorewrite with gst. rewrite get_tbl_set_tbl, decide_False; [by apply I3|]. by destruct Hk as [->|[? ->]].
    + intros i Hi. autorewrite with gst. rewrite get_tbl_set_tbl. destruct (decide (k = OInit Acc)) as [->|]; [|by apply I4].
      rewrite lookup_insert_ne; [by apply I4|]. intros <-. apply HC. split; [done|]. by rewrite Ho.
    + by autorewrite with gst.
  - intros s g f HI [HH HC] Hv Ho. destruct (w_full _ _ _ _ _ _ _ W s g f) as [[A1 A1'] A2]; auto; [apply HI|].
    split; [|done]. split; [|done]. destruct HI as (I1 & I2 & I3 & I4 & I5). unfold inserted in *. split_and!; auto.
    + unfold bucket, get_object_list in *. by autorewrite with gst.
    + intros i Hi. autorewrite with gst. rewrite get_tbl_set_tbl. destruct (decide (OFull f = OFull Acc)) as [E|]; [|by apply I3].
      injection E as ->. rewrite lookup_insert_ne; [by apply I3|]. intros <-. apply HC. split; [done|]. by rewrite Ho.
    + intros i Hi. autorewrite with gst. rewrite get_tbl_set_tbl, decide_False by done. by apply I4.
    + by autorewrite with gst.
  - intros s g HI [HH HC] HD Hv Hk. destruct (w_black _ _ _ _ _ _ _ W s g) as [A1 A2]; auto; [apply HI|].
    split; [|done]. destruct HI as (I1 & I2 & I3 & I4 & I5). split_and!; auto.
    + unfold bucket, get_object_list in *. by autorewrite with gst.
    + intros i Hi. autorewrite with gst. by apply I3.
    + intros i Hi. autorewrite with gst. by apply I4.
    + autorewrite with gst. rewrite elem_of_union, elem_of_singleton. rewrite <- I5. split; [|by right]. intros [Hp|]; [|done]. exfalso.
      symmetry in Hp. destruct Hk as [Hk|Hk]; [specialize (HH Hp); by rewrite Hk in HH|]. apply HC. split; [done|]. by rewrite Hk.
  - intros s HI. apply (FI_frame s0 s); auto; [by apply (w_conv _ _ _ _ _ _ _ W), HI|..]; intros; by autorewrite with gst.
  - intros s HI. apply (FI_frame s0 s); auto; [by apply (w_conv_init _ _ _ _ _ _ _ W), HI|..]; intros; by autorewrite with gst.
  - intros s g HI [HH HC] Hv Hk. apply (FI_frame s0 s); auto; [apply (w_payload _ _ _ _ _ _ _ W); auto; apply HI|..]; intros; by autorewrite with gst.
  - intros s g f HI [HH HC] Hk. destruct (w_reads _ _ _ _ _ _ _ W s g f) as [A1 A2]; auto; [apply HI|].
    split; [|done]. destruct HI as (I1 & I2 & I3 & I4 & I5). unfold read_and_store in *. cbn [fst] in *. split_and!; auto.
    + rewrite <- I2. unfold bucket, get_object_list, frags_at. autorewrite with gst. destruct (Nat.ltb _ _); [|done]. rewrite get_frags_set_frags.
      destruct (decide (f = Acc)) as [->|]; [|done]. rewrite lookup_insert_ne; [done|]. intros Ei. apply HC. injection Ei as _ _ Ei. split; [done|]. by rewrite Hk.
    + intros i Hi. autorewrite with gst. destruct (Nat.ltb _ _); autorewrite with gst; by apply I3.
    + intros i Hi. autorewrite with gst. destruct (Nat.ltb _ _); autorewrite with gst; by apply I4.
    + autorewrite with gst. destruct (Nat.ltb _ _); by autorewrite with gst.
  - intros s g k HI [HH HC] HD Hv Ho Hk. destruct (w_send _ _ _ _ _ _ _ W s g k) as [A1 A2]; auto; [apply HI|].
    split; (apply (FI_frame s0 s); auto; intros; by autorewrite with gst).
  - intros s g f HI [HH HC] Hk. apply (FI_frame s0 s); auto; [by eapply (w_send_frag _ _ _ _ _ _ _ W); [apply HI|..]|..]; intros; by autorewrite with gst.
  - intros s g f HI [HH HC] Hk. apply (FI_frame s0 s); auto; [by eapply (w_send_full _ _ _ _ _ _ _ W); [apply HI|..]|..]; intros; by autorewrite with gst.
  - intros s g f HI [HH HC] HD Hv Hk Hf. eapply (w_later _ _ _ _ _ _ _ W); eauto. apply HI.
  - intros s1 s g sf Ht I0 Hb HR HI Hs. cbn zeta. pose proof Ht as [_ (f & Hf & Hk)].
    destruct (w_sign_timer _ _ _ _ _ _ _ W s1 s g sf) as [A1 A2]; auto; [apply I0|apply HI|].
    split; [apply (FI_frame s0 s); auto; intros; by autorewrite with gst|]. split; [done|].
    intros [_ Hc]. rewrite (frag_of_kind c g _ f Hk) in Hc. by destruct f.
  - intros s1 s g sf [HH HC] HD Hv Hk I0 Hb HR HI Hs. cbn zeta.
    destruct (w_sign_acc _ _ _ _ _ _ _ W s1 s g sf) as [A1 A2]; auto; [apply I0|apply HI|].
    split; [apply (FI_frame s0 s); auto; intros; by autorewrite with gst|]. split; [done|].
    intros [Hp _]. apply HC. split; [destruct g; exact Hp|by rewrite Hk].
  - intros s1 s g f Hf Hk I0 [HH HC] Hm HR HI now. split; [by eapply (w_mal _ _ _ _ _ _ _ W s1); eauto; [apply I0|apply HI]|].
    intros [_ Hc]. by rewrite con_kind in Hc.
  - intros s1 s s' g f l g0 ts Hk I0 [HH HC] HT HR HI Hl Hag Hh HR' HI' period stamp Hp. cbn zeta.
    destruct (w_fullgen _ _ _ _ _ _ _ W s1 s s' g f l g0 ts) with (period := period) (stamp := stamp) as [A1 A2]; auto; [apply I0|apply HI|apply HI'|].
    split; [apply (FI_frame s0 s'); auto; intros; by autorewrite with gst|]. split; [done|].
    intros [Hp0 Hc]. unfold obj_kind in Hc. cbn [g_type full_of] in Hc. rewrite (target_kind g f Hk) in Hc. destruct f; try done.
    cbn in Hp0. apply HC. split; [|by rewrite Hk]. destruct HI as ((G & _) & _). destruct G as (_ & _ & H3 & _).
    subst l. unfold get_object_list, frags_at in Hh. destruct (get_frags s Acc !! get_id g) as [l|] eqn:E; [|done].
    rewrite <- Hp0. destruct l as [|x l]; [done|]. injection Hh as ->.
    destruct (proj2 (H3 _ _ _ E) g0) as [Hi _]; [by left|]. by injection Hi.
  - done.
  - done.
  - done.
Qed.
End node.
