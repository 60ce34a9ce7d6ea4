(** Accusations handed to different gossipers, across the network. *)
From Verif Require Import Bytes Hex Json Types Crypto Verify Prog Gossiper Network SpecCodec SpecVerify SpecGossiper SpecNetwork SpecAccuse ProgFacts GstFacts CodecFacts CryptoFacts VerifyFacts WireFacts GWalk GossiperInv GossiperSeq GossiperEvidence GossiperStep GossiperSeqInv GossiperConflict GossiperFrag NetworkNode NetworkFacts DetectStep DetectFacts AccuseNode AccuseStep.
From Coq Require Import Lia.
Open Scope string_scope.

Section net.
Context {P : prims} (cfgs : gmap string (gconf P)) (T : nat) (HN : honest_network cfgs T).
Context (Hagg : agg_correct P) (Hperm : fast_perm P) (Hdeser : forall sg : bls_sig P, bls_deser (bls_ser sg) = Some sg).
Context (e p : string) (As : list gobj) (HA : accusations cfgs e p As).
Context (acd : string -> Prop) (stm : gobj -> Prop).
Context (Hstm : forall g, stm g -> g_signer g <> "" /\ forall h, stm h -> get_id h = get_id g -> (g_s0 h, g_s1 h) = (g_s0 g, g_s1 g)).
Notation frag_ok := (frag_ok cfgs As acd).
Notation bucket := (AccuseNode.bucket e p).
Notation signers s := (map g_signer (bucket s)).
Notation JA := (AccuseStep.JA cfgs T e p As acd stm).
Notation fair_event := (AccuseStep.fair_event cfgs e As acd stm).
Notation good_msg := (AccuseNode.good_msg cfgs e As acd stm).
Notation known := (AccuseStep.known e p).

Definition fair_net (ev : nevent) : Prop :=
  match ev with NHand u g => AccuseNode.fair cfgs e As acd stm u g /\ (g_p0 g = e -> obj_kind g <> KObj (OFull Acc)) | _ => True end.

Record AN (N : net) : Prop := mkAN {
  an_dom : forall u, is_Some (nt_nodes N !! u) <-> is_Some (cfgs !! u);
  an_node : forall u c y, cfgs !! u = Some c -> nt_nodes N !! u = Some y -> JA u c y;
  an_post : forall q, q ∈ nt_flight N -> good_msg (po_path q) (po_msg q);
  an_frag : forall u v y z w, u <> v -> nt_nodes N !! u = Some y -> nt_nodes N !! v = Some z -> w ∈ signers (s_st y) ->
    known w (s_st z) \/ exists o, frag_ok o /\ g_signer o = w /\ object_post v o ∈ nt_flight N
}.

Notation sound_step u c Hu := (step_found cfgs T HN Hagg Hperm Hdeser e p As HA acd stm Hstm u c Hu).

Lemma known_stable (c : gconf P) w s s' out : found cfgs e p As acd c s s' out -> known w s -> known w s'.
Proof using.
  intros [F1 F2|o F1 F2 F3 F4] [Hb|Hs]; unfold AccuseStep.known.
  - left. by apply F2.
  - right. by rewrite F1.
  - left. by apply F3.
  - right. rewrite F1, map_app. apply elem_of_app. by left.
Qed.

Lemma out_fair u c y y' q : JA u c y' -> q ∈ out_of y y' -> good_msg (po_path q) (po_msg q).
Proof using.
  intros ((_ & _ & _ & H & _) & _) Hq. unfold out_of, posts in Hq. apply elem_of_list_omap in Hq as (x & Hx & Ex).
  destruct x; try done. injection Ex as <-. cbn. eapply H. apply elem_of_list_lookup in Hx as (j & Hj). rewrite lookup_drop in Hj. by eapply elem_of_list_lookup_2.
Qed.

Lemma preserve_acc N u c y ev F : AN N -> cfgs !! u = Some c -> nt_nodes N !! u = Some y -> fair_event u ev ->
  (forall q, q ∈ F -> q ∈ nt_flight N) ->
  (forall q, q ∈ nt_flight N -> q ∈ F \/ forall v g, frag_ok g -> q = object_post v g -> v = u /\ exists n, ev = Recv n g) ->
  AN (mknet (<[u := step c y ev]> (nt_nodes N)) (F ++ out_of y (step c y ev))).
Proof using All.
  intros [D1 D2 D3 D4] Hu Hy Hev HF Hq. set (y' := step c y ev).
  destruct (sound_step u c Hu y ev (D2 u c y Hu Hy) Hev) as (HJ & Hf & Hrecv). fold y' in HJ, Hf, Hrecv.
  assert (forall v z, <[u:=y']> (nt_nodes N) !! v = Some z -> (v = u /\ z = y') \/ (v <> u /\ nt_nodes N !! v = Some z)) as Hl.
  { intros v z. rewrite lookup_insert_Some. intros [[<- <-]|[? ?]]; auto. }
  assert (forall v z, v <> u -> nt_nodes N !! v = Some z -> v ∈ gc_neighbours c) as Hnb.
  { intros v z Hv Hz. apply (hn_connected _ _ HN u c Hu). split; [done|]. apply D1. by eexists. }
  split; cbn [nt_nodes nt_flight].
  - intros v. destruct (decide (v = u)) as [->|Hne].
    + rewrite lookup_insert, Hu. split; by eexists.
    + by rewrite lookup_insert_ne.
  - intros v d z Hd Hz. destruct (Hl v z Hz) as [[-> ->]|[_ Hz']]; [by simplify_eq|by eapply D2].
  - intros q Hin. apply elem_of_app in Hin as [Hin|Hin]; [by apply D3, HF|by eapply out_fair].
  - intros v w z x sg Hne Hz Hx Hs.
    assert (forall z0, nt_nodes N !! v = Some z0 -> sg ∈ signers (s_st z0) -> known sg (s_st x) \/ exists o, frag_ok o /\ g_signer o = sg /\ object_post w o ∈ (F ++ out_of y y')%list) as Hold.
    { intros z0 Hz0 Hs0. destruct (Hl w x Hx) as [[-> ->]|[Hw Hx']].
      - destruct (D4 v u z0 y sg Hne Hz0 Hy Hs0) as [Hk|(o & Ho & Hsg & Hf')]; [left; by eapply known_stable|].
        destruct (Hq _ Hf') as [Hin|Hin]; [right; exists o; split_and!; auto; apply elem_of_app; by left|].
        left. destruct (Hin u o Ho eq_refl) as [_ [n ->]]. rewrite <- Hsg. by apply Hrecv.
      - destruct (D4 v w z0 x sg Hne Hz0 Hx' Hs0) as [Hk|(o & Ho & Hsg & Hf')]; [by left|].
        destruct (Hq _ Hf') as [Hin|Hin]; [right; exists o; split_and!; auto; apply elem_of_app; by left|].
        exfalso. by destruct (Hin w o Ho eq_refl). }
    destruct (Hl v z Hz) as [[-> ->]|[_ Hz']]; [|by eapply Hold].
    destruct Hf as [F1 F2|o F1 F2 F3 F4]; [rewrite F1 in Hs; by eapply Hold|].
    rewrite F1, map_app in Hs. apply elem_of_app in Hs as [Hs|Hs]; [by eapply Hold|]. apply elem_of_list_singleton in Hs as ->.
    right. exists o. split_and!; auto. apply elem_of_app. right. apply F4.
    destruct (Hl w x Hx) as [[-> _]|[? Hx']]; [done|by eapply Hnb].
Qed.

Lemma AN_init q sec st : AN (net_init cfgs q sec st).
Proof using All.
  assert (forall u (y : gsys), nt_nodes (net_init cfgs q sec st) !! u = Some y -> y = init_gsys q sec st) as Hi.
  { intros u y. cbn. rewrite lookup_fmap. destruct (cfgs !! u); [|done]. by intros [= <-]. }
  split.
  - intros u. cbn. rewrite lookup_fmap. destruct (cfgs !! u); cbn; split; intros [? ?]; try done; by eexists.
  - intros u c y Hu Hy. rewrite (Hi u y Hy). by eapply JA_init.
  - intros x Hx. by apply elem_of_nil in Hx.
  - intros u v y z w _ Hy _. rewrite (Hi u y Hy). intros Hw. exfalso. revert Hw. unfold AccuseNode.bucket, get_object_list, frags_at. cbn. rewrite lookup_empty. apply not_elem_of_nil.
Qed.

Lemma passed_event u g n : AccuseNode.passed cfgs e As acd stm g -> fair_event u (Recv n g).
Proof using.
  intros H. split; [by apply passed_fair|]. intros Hp Hk. specialize (H Hp). by rewrite Hk in H.
Qed.

Lemma arrival_fair N q ev : AN N -> q ∈ nt_flight N -> arrival q = Some ev -> fair_event (po_to q) ev.
Proof using.
  intros HD Hq Eq. pose proof (an_post _ HD q Hq) as Hm. unfold arrival in Eq.
  destruct (bool_decide_reflect (po_path q ∈ object_paths)) as [Hpath|].
  - destruct (po_msg q) as [g'|nn] eqn:Em; [|done]. rewrite gobj_roundtrip in Eq. injection Eq as <-. by apply passed_event.
  - destruct (String.eqb _ _); [destruct (note_decode _); [|done]; by injection Eq as <-|].
    destruct (String.eqb _ _); [destruct (note_decode _); [|done]; by injection Eq as <-|done].
Qed.

Lemma AN_step N ev : AN N -> fair_net ev -> AN (net_step cfgs N ev).
Proof using All.
  intros HD Hev. pose proof HD as [D1 D2 D3 D4].
  assert (forall u ev', fair_event u ev' -> AN (act cfgs N u ev')) as Hact.
  { intros u ev' He. unfold act. destruct (cfgs !! u) as [c|] eqn:Hu; [|done]. destruct (nt_nodes N !! u) as [y|] eqn:Hy; [|done].
    apply (preserve_acc N u c y ev' (nt_flight N)); auto. }
  destruct ev as [u g|j|u j|u q s t]; cbn [net_step fair_net] in *; [by apply Hact| |by apply Hact|by apply Hact].
  destruct (nt_flight N !! j) as [q|] eqn:Ej; [|done].
  assert (forall q', q' ∈ nt_flight N -> q' ∈ delete j (nt_flight N) \/ q' = q) as Hdel by (intros; by eapply elem_of_delete_or).
  assert (q ∈ nt_flight N) as Hqin by (by eapply elem_of_list_lookup_2).
  assert (forall v g, frag_ok g -> q = object_post v g -> arrival q = Some (Recv (Z.of_nat (len (gobj_marshal g))) g)) as Harr.
  { intros v g (w & d & a & _ & _ & Ha & ->) ->. destruct (acc_fields cfgs e p As HA d a Ha) as (Hk & _). unfold object_post. apply arrival_object. rewrite Hk. by apply (bool_decide_unpack _). }
  assert ((forall v g z, frag_ok g -> q = object_post v g -> nt_nodes N !! v = Some z -> False) -> AN (mknet (nt_nodes N) (delete j (nt_flight N)))) as Hdrop.
  { intros Hno. split; cbn [nt_nodes nt_flight]; auto.
    - intros q' Hq'. by eapply D3, elem_of_delete.
    - intros u v y z w Hne Hy Hz Hw. destruct (D4 u v y z w Hne Hy Hz Hw) as [?|(o & Ho & Hs & Hf)]; [by left|].
      destruct (Hdel _ Hf) as [Hf'|Hf']; [right; by exists o|]. exfalso. by eapply (Hno v o z). }
  destruct (arrival q) as [ev'|] eqn:Eq.
  2: { apply Hdrop. intros v g z Hk Hqe _. specialize (Harr v g Hk Hqe). done. }
  pose proof (arrival_fair N q ev' HD Hqin Eq) as Hev'.
  unfold act. cbn [nt_nodes nt_flight]. destruct (cfgs !! po_to q) as [c|] eqn:Hu; [destruct (nt_nodes N !! po_to q) as [y|] eqn:Hy|].
  - apply (preserve_acc N (po_to q) c y ev' (delete j (nt_flight N))); auto.
    + intros q' Hq'. by eapply elem_of_delete.
    + intros q' Hq'. destruct (Hdel q' Hq') as [?| ->]; [by left|right]. intros v g Hk Hqe. split; [by rewrite Hqe|].
      specialize (Harr v g Hk Hqe). injection Harr as ->. by eexists.
  - apply Hdrop. intros v g z _ -> Hz. cbn in Hy. congruence.
  - apply Hdrop. intros v g z _ -> Hz. assert (is_Some (cfgs !! v)) as [? ?] by (apply D1; by eexists). cbn in Hu. congruence.
Qed.

Lemma AN_run N l : AN N -> Forall fair_net l -> AN (net_run cfgs N l).
Proof using All. intros HD Hl. revert N HD. induction Hl as [|ev l He _ IH]; intros N HD; [done|]. cbn. by apply IH, AN_step. Qed.

(** What is known stays known. *)
Lemma act_known N u ev v z w : AN N -> fair_event u ev -> nt_nodes N !! v = Some z -> known w (s_st z) ->
  exists z', nt_nodes (act cfgs N u ev) !! v = Some z' /\ known w (s_st z').
Proof using All.
  intros HD Hev Hz Hs. unfold act. destruct (cfgs !! u) as [c|] eqn:Hu; [|eauto]. destruct (nt_nodes N !! u) as [y|] eqn:Hy; [|eauto].
  cbn [nt_nodes]. destruct (decide (u = v)) as [->|Hn]; [|rewrite lookup_insert_ne by done; eauto].
  rewrite lookup_insert. eexists. split; [done|]. simplify_eq.
  destruct (sound_step v c Hu z ev (an_node _ HD v c z Hu Hz) Hev) as (_ & Hf & _). by eapply known_stable.
Qed.

Lemma net_known N ev v z w : AN N -> fair_net ev -> nt_nodes N !! v = Some z -> known w (s_st z) ->
  exists z', nt_nodes (net_step cfgs N ev) !! v = Some z' /\ known w (s_st z').
Proof using All.
  intros HD Hev Hz Hs. destruct ev as [u h|j|u j|u q s t]; cbn [net_step fair_net] in *; [by eapply act_known| |by eapply act_known|by eapply act_known].
  destruct (nt_flight N !! j) as [q|] eqn:Ej; [|eauto]. destruct (arrival q) as [ev'|] eqn:Eq; [|eauto].
  assert (fair_event (po_to q) ev') as He by (eapply arrival_fair; [done|by eapply elem_of_list_lookup_2|done]).
  destruct (act_known N (po_to q) ev' v z w HD He Hz Hs) as (z' & Hz' & Hs'). exists z'. split; [|done].
  revert Hz'. unfold act. cbn [nt_nodes]. destruct (cfgs !! po_to q); [|done]. by destruct (nt_nodes N !! po_to q).
Qed.

Lemma run_known N l v z w : AN N -> Forall fair_net l -> nt_nodes N !! v = Some z -> known w (s_st z) ->
  exists z', nt_nodes (net_run cfgs N l) !! v = Some z' /\ known w (s_st z').
Proof using All.
  intros HD Hl. revert N z HD. induction Hl as [|ev l He _ IH]; intros N z HD Hz Hs; [eauto|]. cbn.
  destruct (net_known N ev v z w HD He Hz Hs) as (z' & Hz' & Hs'). by eapply (IH (net_step cfgs N ev) z'); [apply AN_step|..].
Qed.

Lemma handed_known N l u c a : AN N -> Forall fair_net l -> NHand u a ∈ l -> cfgs !! u = Some c -> a ∈ As ->
  exists y, nt_nodes (net_run cfgs N l) !! u = Some y /\ known u (s_st y).
Proof using All.
  intros HD Hl Hin Hu Ha. revert N HD. induction Hl as [|ev l He Hl IH]; intros N HD; [by apply elem_of_nil in Hin|]. cbn.
  pose proof (AN_step N ev HD He) as HD'.
  apply elem_of_cons in Hin as [<-|Hin]; [|by apply IH].
  assert (is_Some (nt_nodes N !! u)) as [y Hy] by (apply (an_dom _ HD); by eexists).
  destruct (sound_step u c Hu y (Recv (Z.of_nat (len (gobj_marshal a))) a) (an_node _ HD u c y Hu Hy) He) as (_ & _ & _ & Hr).
  eapply run_known; [exact HD'|done| |exact (Hr Ha)].
  cbn [net_step]. unfold act. rewrite Hu, Hy. cbn [nt_nodes]. by rewrite lookup_insert.
Qed.

(** Nothing on its way: everybody agrees. *)
Lemma settled_black N : AN N -> nt_flight N = [] -> forall us, NoDup us -> length us = T -> 
  (forall u, u ∈ us -> exists y, nt_nodes N !! u = Some y /\ known u (s_st y)) ->
  forall v z, nt_nodes N !! v = Some z -> e ∈ t_black (s_st z).
Proof using HN.
  intros HD Hq us Hnd Hlen Hus v z Hz. pose proof (hn_enough _ _ HN) as [HT0 _].
  assert (is_Some (cfgs !! v)) as [d Hd] by (apply (an_dom _ HD); by eexists).
  destruct (an_node _ HD v d z Hd Hz) as (_ & _ & [K1 K2 K3 K4 K5 K6] & _).
  destruct (decide (e ∈ t_black (s_st z))) as [|Hnb]; [done|]. exfalso.
  (* everything a gossiper has, v has *)
  assert (forall u y w, nt_nodes N !! u = Some y -> w ∈ signers (s_st y) -> w ∈ signers (s_st z)) as Hshare.
  { intros u y w Hy Hw. destruct (decide (u = v)) as [->|Hne]; [by simplify_eq|].
    destruct (an_frag _ HD u v y z w Hne Hy Hz Hw) as [[?|?]|(o & _ & _ & Hf)]; [done|done|]. rewrite Hq in Hf. by apply elem_of_nil in Hf. }
  assert (forall l, NoDup l -> length l = T -> (forall w, w ∈ l -> w ∈ signers (s_st z)) -> False) as Hfull.
  { intros l Hl Hll Hsub. pose proof (nodup_subset_length l _ Hl Hsub) as Hle. rewrite map_length, Hll in Hle. apply Hnb, K4. lia. }
  assert (forall u y, nt_nodes N !! u = Some y -> e ∈ t_black (s_st y) -> False) as Hblack.
  { intros u y Hy Hb. assert (is_Some (cfgs !! u)) as [c Hc] by (apply (an_dom _ HD); by eexists).
    destruct (an_node _ HD u c y Hc Hy) as (_ & _ & [J1 J2 J3 J4 J5 J6] & _).
    apply (Hfull (signers (s_st y))); [done|rewrite map_length; by apply J4|]. intros w Hw. by eapply Hshare. }
  apply (Hfull us); auto. intros w Hw. destruct (Hus w Hw) as (y & Hy & [Hb|Hs]); [exfalso; by eapply Hblack|by eapply Hshare].
Qed.
End net.

Definition handed_about {P : prims} (e : string) (l : list nevent) (g : gobj) : Prop :=
  (exists v, NHand v g ∈ l) /\ g_p0 g = e /\ statement g.

Section main.
Context {P : prims} (cfgs : gmap string (gconf P)) (T : nat) (HN : honest_network cfgs T).
Context (Hagg : agg_correct P) (Hperm : fast_perm P) (Hdeser : forall sg : bls_sig P, bls_deser (bls_ser sg) = Some sg).
Context (e p : string) (As : list gobj) (HA : accusations cfgs e p As) (l : list nevent) (Hl : undisturbed e As l).
Notation stm := (handed_about (P:=P) e l).
Notation acd := (accuser As l).

Lemma not_an_accusation g : g ∈ As -> statement g -> False.
Proof using HA. intros Ha [E|E]; destruct (ac_kind _ _ _ _ HA g Ha) as (Ht & _); by rewrite Ht in E. Qed.

Lemma stm_ok g : stm g -> g_signer g <> "" /\ forall h, stm h -> get_id h = get_id g -> (g_s0 h, g_s1 h) = (g_s0 g, g_s1 g).
Proof using HA Hl.
  intros ([v Hv] & Hp & Hs). destruct (Hl v g Hv Hp) as [Ha|[_ H]]; [exfalso; by apply (not_an_accusation g)|].
  destruct (H Hs) as [H1 H2]. split; [done|]. intros h ([w Hw] & _) Hi. by eapply H2.
Qed.

Lemma events_fair : Forall (fair_net cfgs e As acd stm) l.
Proof using HA Hl.
  apply Forall_forall. intros [u g|j|u j|u ? ? ?] Hx; try done. cbn. split.
  - intros Hp. destruct (Hl u g Hx Hp) as [Ha|[Hn Hs]].
    + rewrite (acc_kind cfgs e p As HA g Ha). split; [done|]. by exists g.
    + assert (forall k, obj_kind g = KObj k -> g_type g = okind_type k) as Hty by (intros k; apply obj_kind_obj).
      destruct (obj_kind g) as [[[]| |f]|[]|] eqn:Ek; try done.
      * split_and!; eauto. left. exact (Hty _ eq_refl).
      * split_and!; eauto. right. exact (Hty _ eq_refl).
      * exfalso. apply Hn. rewrite (Hty _ eq_refl). cbn. right. by left.
      * apply Hn. rewrite (Hty _ eq_refl). by left.
      * exfalso. apply Hn. apply obj_kind_frag in Ek. rewrite Ek. cbn. do 2 right. by left.
  - intros Hp Hk. destruct (Hl u g Hx Hp) as [Ha|[Hn _]]; [rewrite (acc_kind cfgs e p As HA g Ha) in Hk; done|].
    apply Hn. apply obj_kind_obj in Hk. rewrite Hk. cbn. do 3 right. by left.
Qed.

Lemma accused_run q sec st : AN cfgs T e p As acd stm (net_run cfgs (net_init cfgs q sec st) l).
Proof using All. apply (AN_run cfgs T HN Hagg Hperm Hdeser e p As HA acd stm stm_ok); [by apply AN_init; auto using stm_ok|apply events_fair]. Qed.

(** Enough accusers: everybody blacklists the entity. *)
Lemma accused_blacklisted q sec st us : let N := net_run cfgs (net_init cfgs q sec st) l in
  nt_flight N = [] -> NoDup us -> length us = T -> (forall u, u ∈ us -> is_Some (cfgs !! u) /\ accuser As l u) ->
  forall v d, cfgs !! v = Some d -> exists y full, nt_nodes N !! v = Some y /\ e ∈ t_black (s_st y) /\
    t_acc_full (s_st y) !! get_id full = Some full /\ g_type full = ACC_FULL /\ g_p0 full = e /\ verify (gc_crypto d) full = Accept /\
    ToMonitor (gc_owner d) full ∈ t_trace (s_st y).
Proof using All.
  intros N Hq Hnd Hlen Hus v d Hv. pose proof (accused_run q sec st) as HD. fold N in HD.
  assert (is_Some (nt_nodes N !! v)) as [y Hy] by (apply (an_dom _ _ _ _ _ _ _ _ HD); by eexists).
  assert (e ∈ t_black (s_st y)) as Hb.
  { eapply (settled_black cfgs T HN e p As acd stm N HD Hq us Hnd Hlen); [|exact Hy].
    intros u Hu. destruct (Hus u Hu) as [[c Hc] (a & Ha & Hin)].
    eapply (handed_known cfgs T HN Hagg Hperm Hdeser e p As HA acd stm stm_ok _ l u c a); auto; [apply AN_init; auto using stm_ok|apply events_fair]. }
  destruct (an_node _ _ _ _ _ _ _ _ HD v d y Hv Hy) as (_ & _ & [K1 K2 K3 K4 K5 K6] & _).
  destruct (K5 Hb) as (full & F1 & F2 & F3 & F4 & F5 & F6). exists y, full. by split_and!.
Qed.

(** Not enough: nobody does. *)
Lemma blacklisted_accused q sec st v y : let N := net_run cfgs (net_init cfgs q sec st) l in
  nt_nodes N !! v = Some y -> e ∈ t_black (s_st y) ->
  exists us, NoDup us /\ length us = T /\ (forall u, u ∈ us -> is_Some (cfgs !! u) /\ accuser As l u) /\
    exists full, t_acc_full (s_st y) !! get_id full = Some full /\ g_signers full = us.
Proof using All.
  intros N Hy Hb. pose proof (accused_run q sec st) as HD. fold N in HD.
  assert (is_Some (cfgs !! v)) as [d Hv] by (apply (an_dom _ _ _ _ _ _ _ _ HD); by eexists).
  destruct (an_node _ _ _ _ _ _ _ _ HD v d y Hv Hy) as (_ & _ & [K1 K2 K3 K4 K5 K6] & _).
  exists (map g_signer (AccuseNode.bucket e p (s_st y))). split_and!; [done|rewrite map_length; by apply K4| |].
  - intros u Hu. apply elem_of_list_fmap in Hu as (o & -> & Ho). destruct (K1 o Ho) as (w & dw & a & Hw & Hac & Ha & ->).
    destruct (acc_fields cfgs e p As HA dw a Ha) as (_ & _ & _ & _ & _ & _ & _ & ->). destruct (hn_self _ _ HN w dw Hw) as [-> _]. split; [by eexists|done].
  - destruct (K5 Hb) as (full & F1 & F2 & F3 & F4 & F5 & F6). exists full. by split.
Qed.
End main.
