(** Accusations handed to different gossipers, across the network, when
    handlers overlap. *)
From Verif Require Import Bytes Hex Json Types Crypto Verify Prog Gossiper Network Overlap SpecCodec SpecVerify SpecGossiper SpecNetwork SpecOverlap SpecAccuse SpecOverlapAccuse ProgFacts Duty DutyMore GstFacts CodecFacts CryptoFacts VerifyFacts WireFacts GWalk GossiperInv GossiperSeq GossiperEvidence GossiperStep GossiperSeqInv GossiperConflict GossiperFrag NetworkNode NetworkFacts OverlapFacts DetectStep DetectFacts AccuseNode AccuseStep AccuseFacts OverlapDetectNet OverlapAccuseNode.
From Coq Require Import Lia.
Open Scope string_scope.

Section net.
Context {P : prims} (cfgs : gmap string (gconf P)) (T : nat) (HN : honest_network cfgs T).
Context (Hagg : agg_correct P) (Hperm : fast_perm P) (Hdeser : forall sg : bls_sig P, bls_deser (bls_ser sg) = Some sg).
Context (e p : string) (As : list gobj) (HA : accusations cfgs e p As).
Context (acd : string -> Prop) (stm : gobj -> Prop).
Context (Hstm : forall g, stm g -> g_signer g <> "" /\ forall h, stm h -> get_id h = get_id g -> (g_s0 h, g_s1 h) = (g_s0 g, g_s1 g)).
Context (period sec st : string).
Notation frag_ok := (AccuseNode.frag_ok cfgs As acd).
Notation bucket := (AccuseNode.bucket e p).
Notation signers s := (map g_signer (bucket s)).
Notation good_msg := (AccuseNode.good_msg cfgs e As acd stm).
Notation fair u := (AccuseNode.fair cfgs e As acd stm u).
Notation OI u c := (OverlapAccuseNode.OI cfgs T e p As acd stm u c).
Notation OR := (OverlapAccuseNode.OR e p).
Notation due u c := (OverlapAccuseNode.due cfgs T e p As acd u c).
Notation d_frag := (OverlapAccuseNode.d_frag T e p).
Notation d_hand := (OverlapAccuseNode.d_hand T e p As).
Notation enough := (OverlapAccuseNode.enough T e p).
Notation convicts := (OverlapAccuseNode.convicts e).
Notation det := (OverlapAccuseNode.det e).
Notation owed u c := (owed (OI u c) (λ _, True) OR).
Notation node u c := (pool_dut (OI u c) OR Etok (λ _, True) (due u c)).

Definition moved (u : string) (c : gconf P) (y y' : gpool) : Prop :=
  node u c y' /\ OR (p_st y) (p_st y') /\ forall d, lasting OR d -> (forall t, ~ du_task d t) -> owed u c d y -> owed u c d y'.

Section one.
Context (u : string) (c : gconf P) (Hu : cfgs !! u = Some c).
Local Instance pre : PreOrder OR := OverlapAccuseNode.OR_pre e p c.
Notation walk := (walk_accused cfgs T HN Hagg Hperm Hdeser e p As HA acd stm Hstm u c Hu).
Notation lasts := (due_lasting cfgs T e p As acd u c).
Notation no_task := (due_tasks cfgs T e p As acd u c).
Notation task_dut := (dutiful_task cfgs T HN Hagg Hperm Hdeser e p As HA acd stm Hstm u c Hu).
Lemma stable t s s' : Etok t s -> OR s s' -> Etok t s'.
Proof using All. apply (w_tok _ _ _ _ _ _ _ walk). Qed.
Lemma starts t s : Etok t s -> safe (OI u c) OR Etok (λ _, True) (λ _ _, True) (start_task c t) s.
Proof using All. intros H. by eapply s_start; [apply walk|]. Qed.

Lemma node_run j y : node u c y -> moved u c y (thread_step j y).
Proof using All.
  intros Hy. destruct (pd_thread (start_task c) (OI u c) OR Etok (λ _, True) (due u c) stable starts lasts no_task task_dut j y Hy) as [A1 A2].
  split_and!; auto. intros d Hd _. pose proof (proj1 (pd_ok _ _ _ _ _ _ Hy)). pose proof (proj1 (pd_ok _ _ _ _ _ _ A1)). apply (owed_thread (OI u c) OR); auto.
Qed.
Lemma node_fire j y : node u c y -> moved u c y (task_start (start_task c) j y).
Proof using All.
  intros Hy. split_and!.
  - by apply (pd_fire (start_task c) (OI u c) OR Etok (λ _, True) (due u c) stable starts lasts no_task task_dut j y Hy).
  - unfold task_start. by destruct (p_tasks y !! j).
  - intros d _ Hd. by apply owed_fire.
Qed.
Lemma clock_bucket s q x t : bucket (set_clock s q x t) = bucket s.
Proof using. unfold AccuseNode.bucket, get_object_list, frags_at. by autorewrite with gst. Qed.
Lemma clock_OI s q x t : OI u c s -> GWalk.keeps (OI u c) OR s (set_clock s q x t).
Proof using.
  intros HI. apply (OverlapAccuseNode.OI_frame cfgs T e p As acd stm u c s _ []); auto; try (intros; by autorewrite with gst).
  - apply (AccuseNode.DI_frame cfgs e As acd stm u c s); auto; try (intros; by autorewrite with gst); [apply HI| |intros v ep g; autorewrite with gst; by left].
    apply GI_frame; [..|apply HI]; intros; by autorewrite with gst.
  - by rewrite clock_bucket.
  - autorewrite with gst. auto.
  - autorewrite with gst. by rewrite app_nil_r.
  - by intros x' ?%elem_of_nil.
Qed.
Lemma node_tick q x t y : node u c y -> moved u c y (mkpool (set_clock (p_st y) q x t) (p_threads y) (p_tasks y) (p_crashes y)).
Proof using All.
  intros Hy. destruct (clock_OI (p_st y) q x t) as [K1 K2]; [apply (proj1 (pd_ok _ _ _ _ _ _ Hy))|]. split_and!; auto.
  - apply (pd_env (OI u c) OR Etok (λ _, True) (due u c) stable lasts); auto.
    intros d [w v Hv| |g Hg|g Hg|] H; cbn [du_when d_send d_full d_black d_report d_own] in *; unfold OverlapAccuseNode.enough, accin in *; autorewrite with gst in H; rewrite ?clock_bucket in H; exact H.
  - intros d Hd _ Ho. by apply (owed_env (OI u c) OR d y).
Qed.

Definition proper (ev : gevent) : Prop := match ev with Recv n g => n = Z.of_nat (len (gobj_marshal g)) /\ fair u g /\ ~ convicts g | _ => True end.

Lemma node_add ev y : proper ev -> node u c y -> moved u c y (thread_add (request_prog c ev) y).
Proof using All.
  intros He Hy. split_and!; [|reflexivity|intros d _ _; by apply owed_add].
  apply pd_add; [| |done].
  - destruct ev as [n g|n|n|j|q x t|]; cbn [request_prog proper] in *; try done.
    + destruct He as (_ & Hg & Hn). by apply (safe_object cfgs T HN Hagg Hperm Hdeser e p As HA acd stm Hstm u c Hu).
    + apply (safe_notification cfgs T HN Hagg Hperm Hdeser e p As HA acd stm Hstm u c Hu).
    + apply (safe_request cfgs T HN Hagg Hperm Hdeser e p As HA acd stm Hstm u c Hu).
  - destruct ev as [n g|n|n|j|q x t|]; cbn [request_prog]; try done.
    + apply (dutiful_object cfgs T HN Hagg Hperm Hdeser e p As HA acd stm Hstm u c Hu).
    + apply dutiful_notification.
    + apply dutiful_request.
Qed.

Lemma acc_request n g : obj_kind g = KObj (OInit Acc) \/ obj_kind g = KFrag Acc -> object_handler c n g = handle_n c 3 g.
Proof using.
  intros Hk. unfold object_handler.
  assert (bool_decide (obj_kind g = KFrag Rev) = false) as -> by (apply bool_decide_eq_false_2; destruct Hk; congruence).
  assert (bool_decide (obj_kind g = KObj (OInit Rev)) = false) as -> by (apply bool_decide_eq_false_2; destruct Hk; congruence).
  by rewrite !andb_false_r.
Qed.

(** What an arriving object leads to. *)
Lemma add_frag n g y : frag_ok g -> owed u c (d_frag (g_signer g)) (thread_add (request_prog c (Recv n g)) y).
Proof using HN Hdeser HA Hu.
  intros Hg. apply owed_new. cbn [request_prog]. rewrite acc_request by (right; apply (frag_facts cfgs e p As HA acd g Hg)).
  by apply (pays_frag cfgs T HN Hdeser e p As HA acd stm u c Hu).
Qed.
Lemma add_hand n g y : g ∈ As -> owed u c d_hand (thread_add (request_prog c (Recv n g)) y).
Proof using HN HA Hu.
  intros Hg. apply owed_new. cbn [request_prog]. rewrite acc_request by (left; by apply (acc_kind cfgs e p As HA)).
  by apply (pays_hand cfgs T HN e p As HA acd stm u c Hu).
Qed.
End one.

Lemma node_init u (c : gconf P) : 0 < T -> node u c (init_pool period sec st).
Proof using.
  intros HT.
  assert (OI u c (init_gst period sec st)) as HI.
  { split; cbn.
    - split_and!; cbn; [apply GI_init| | | |].
      + intros j o. by rewrite lookup_empty.
      + intros k j o. destruct k as [[]| |[]]; cbn; by rewrite lookup_empty.
      + intros w ep g Hg. by apply elem_of_nil in Hg.
      + intros j x o. by rewrite lookup_empty.
    - intros k j o. destruct k as [[]| |[]]; cbn; by rewrite lookup_empty.
    - intros g k Hg. by apply elem_of_nil in Hg.
    - intros Hb. by apply elem_of_empty in Hb.
    - intros (g & Hg & _). by apply elem_of_nil in Hg. }
  assert (bucket (init_gst period sec st) = []) as Eb by (unfold AccuseNode.bucket, get_object_list, frags_at; cbn; by rewrite lookup_empty).
  split; [|by constructor|].
  - split_and!; cbn; [done|by constructor|by constructor|by constructor].
  - intros d [w v Hv| |g Hg|g Hg|] Hw; cbn [du_when d_send d_full d_black d_report d_own init_pool p_st] in Hw; unfold OverlapAccuseNode.enough, accin in Hw; rewrite ?Eb in Hw; cbn in Hw.
    + by apply elem_of_nil in Hw.
    + lia.
    + by apply elem_of_nil in Hw.
    + by apply elem_of_nil in Hw.
    + destruct Hw as (a & _ & Hw). by apply elem_of_nil in Hw.
Qed.

(** ** The network *)
Definition arrived (u : string) (c : gconf P) (z : gpool) (q : post) : Prop := forall o, q = object_post (po_to q) o -> frag_ok o -> owed u c (d_frag (g_signer o)) z.

Record L (hd : list (string * gobj)) (N : onet) : Prop := mkL {
  l_dom : forall u, is_Some (on_nodes N !! u) <-> is_Some (cfgs !! u);
  l_node : forall u c (y : gpool), cfgs !! u = Some c -> on_nodes N !! u = Some y -> node u c y;
  l_flight : forall q, q ∈ on_flight N -> good_msg (po_path q) (po_msg q);
  l_sent : forall u (y : gpool) q, on_nodes N !! u = Some y -> q ∈ posts (t_trace (p_st y)) -> q ∈ on_flight N \/
    forall c (z : gpool), cfgs !! po_to q = Some c -> on_nodes N !! po_to q = Some z -> arrived (po_to q) c z q;
  l_hand : forall u g c (y : gpool), (u, g) ∈ hd -> cfgs !! u = Some c -> on_nodes N !! u = Some y -> g ∈ As -> owed u c d_hand y
}.

Lemma moved_arrived u c y y' q : moved u c y y' -> arrived u c y q -> arrived u c y' q.
Proof using. intros (_ & _ & Hk) Har o Hq Ho. apply Hk; [apply frag_lasting|by intros t []|]. by apply Har. Qed.

Lemma L_preserve hd hd' N u c (y y' : gpool) F : L hd N -> cfgs !! u = Some c -> on_nodes N !! u = Some y -> moved u c y y' ->
  (forall q, q ∈ F -> q ∈ on_flight N) ->
  (forall q, q ∈ on_flight N -> q ∈ F \/ po_to q = u /\ arrived u c y' q) ->
  (forall v g, (v, g) ∈ hd' -> (v, g) ∈ hd \/ v = u /\ (g ∈ As -> owed u c d_hand y')) ->
  L hd' (mkonet (<[u := y']> (on_nodes N)) (F ++ posts (drop (length (t_trace (p_st y))) (t_trace (p_st y')))))%list.
Proof using.
  intros [A1 A2 A3 A4 A5] Hu Hy Hm HF HF' Hh. pose proof Hm as (Hy' & HR & Hk).
  destruct (proj1 HR) as [suf Es]. assert (drop (length (t_trace (p_st y))) (t_trace (p_st y')) = suf) as -> by (by rewrite Es, drop_app).
  assert (forall v z, <[u:=y']> (on_nodes N) !! v = Some z -> (v = u /\ z = y') \/ (v <> u /\ on_nodes N !! v = Some z)) as Hl.
  { intros v z. rewrite lookup_insert_Some. intros [[<- <-]|[? ?]]; auto. }
  split; cbn [on_nodes on_flight].
  - intros v. destruct (decide (v = u)) as [->|Hn]; [rewrite lookup_insert|by rewrite lookup_insert_ne]. split; intros _; eauto.
  - intros v d z Hv Hz. destruct (Hl v z Hz) as [[-> ->]|[_ Hz']]; [by assert (d = c) as -> by congruence|by apply (A2 v)].
  - intros q Hq. apply elem_of_app in Hq as [Hq|Hq]; [by apply A3, HF|].
    destruct (pd_ok _ _ _ _ _ _ Hy') as (HI & _). destruct (OverlapAccuseNode.oi_di _ _ _ _ _ _ _ _ _ _ HI) as (_ & _ & _ & H4 & _). apply (H4 (po_to q)).
    rewrite Es. apply elem_of_app. right. by apply posts_in.
  - intros v z q Hz Hq.
    assert (q ∈ posts suf \/ exists v z, on_nodes N !! v = Some z /\ q ∈ posts (t_trace (p_st z))) as [Hnew|(v' & z' & Hz' & Hq')].
    { destruct (Hl v z Hz) as [[-> ->]|[_ Hz']]; [|right; eauto]. rewrite Es, posts_app in Hq. apply elem_of_app in Hq as [Hq|Hq]; [right; eauto|by left]. }
    { left. apply elem_of_app. by right. }
    destruct (A4 v' z' q Hz' Hq') as [Hin|Harr].
    + destruct (HF' q Hin) as [?|[Eq Har]]; [left; apply elem_of_app; by left|]. right. rewrite Eq. intros d z'' Hd. rewrite lookup_insert. intros [= <-].
      by assert (d = c) as -> by congruence.
    + right. intros d z'' Hd Hz''. destruct (Hl _ _ Hz'') as [[Eq ->]|[_ Hz3]]; [|by apply Harr].
      rewrite Eq in *. assert (d = c) as -> by congruence. eapply moved_arrived; [exact Hm|]. by apply Harr.
  - intros v g d z Hg Hd Hz Ha. destruct (Hl v z Hz) as [[-> ->]|[Hn Hz']].
    + assert (d = c) as -> by congruence. destruct (Hh u g Hg) as [Hg'|[_ Hg']]; [|by apply Hg'].
      apply Hk; [apply hand_lasting|by intros t []|]. by apply (A5 u g).
    + destruct (Hh v g Hg) as [Hg'|[? _]]; [by apply (A5 v g)|done].
Qed.

(** A step at one gossiper that takes nothing from the posts on their way. *)
Lemma inside hd N u (fn : gconf P -> gpool -> gpool) : L hd N ->
  (forall c y, cfgs !! u = Some c -> node u c y -> moved u c y (fn c y)) -> L hd (oact cfgs N u fn).
Proof using.
  intros H1 Hf. destruct (cfgs !! u) as [c|] eqn:Hu; [|by rewrite oact_none].
  assert (is_Some (on_nodes N !! u)) as [y Hy] by (apply (l_dom _ _ H1); by eexists).
  rewrite (oact_eq cfgs N u c y fn Hu Hy). pose proof (Hf c y eq_refl (l_node _ _ H1 u c y Hu Hy)) as Hm.
  apply (L_preserve hd hd N u c y (fn c y) (on_flight N)); auto.
Qed.

Lemma arriving (N : onet) q ev : (forall q, q ∈ on_flight N -> good_msg (po_path q) (po_msg q)) -> q ∈ on_flight N -> arrival q = Some ev ->
  proper (po_to q) ev.
Proof using.
  intros H3 Hq Eq. pose proof (H3 q Hq) as Hm. unfold arrival in Eq.
  destruct (bool_decide_reflect (po_path q ∈ object_paths)) as [Hpath|].
  - destruct (po_msg q) as [g'|nn] eqn:Em; [|done]. rewrite gobj_roundtrip in Eq. injection Eq as <-. split_and!; [done|by apply passed_fair|].
    intros [Hk Hp]. specialize (Hm Hp). by rewrite Hk in Hm.
  - destruct (String.eqb _ _); [destruct (note_decode _); [|done]; by injection Eq as <-|].
    destruct (String.eqb _ _); [destruct (note_decode _); [|done]; by injection Eq as <-|done].
Qed.

Lemma frag_arrival v g : frag_ok g -> arrival (object_post v g) = Some (Recv (Z.of_nat (len (gobj_marshal g))) g).
Proof using HA. intros H. destruct (frag_facts cfgs e p As HA acd g H) as (Hk & _). unfold object_post. apply arrival_object. rewrite Hk. by apply (bool_decide_unpack _). Qed.

Definition allowed (ev : oevent) : Prop := match ev with OHand u g => fair u g /\ ~ convicts g | _ => True end.

Lemma one_step hd N ev : L hd N -> allowed ev -> L (hand_of ev ++ hd)%list (onet_step cfgs N ev).
Proof using All.
  intros H1 Hok. destruct ev as [u g|j|u j|u j|u q x t]; cbn [onet_step hand_of app allowed] in *.
  - destruct (cfgs !! u) as [c|] eqn:Hu.
    2: { rewrite oact_none by done. destruct H1 as [A1 A2 A3 A4 A5]. split; auto.
         intros v h d y [[= -> ->]|Hin]%elem_of_cons; [congruence|by apply (A5 v h)]. }
    assert (is_Some (on_nodes N !! u)) as [y Hy] by (apply (l_dom _ _ H1); by eexists).
    rewrite (oact_eq cfgs N u c y _ Hu Hy).
    apply (L_preserve hd _ N u c y _ (on_flight N)); auto.
    { apply (node_add u c Hu); [by split|]. by apply (l_node _ _ H1 u). }
    intros v h [[= -> ->]|Hin]%elem_of_cons; [|by left]. right. split; [done|]. intros Ha. by apply (add_hand u c Hu).
  - destruct (on_flight N !! j) as [q|] eqn:Ej; [|done]. pose proof (elem_of_list_lookup_2 _ _ _ Ej) as Hq.
    set (N' := mkonet (on_nodes N) (delete j (on_flight N))).
    assert ((forall c (z : gpool), cfgs !! po_to q = Some c -> on_nodes N !! po_to q = Some z -> arrived (po_to q) c z q) -> L hd N') as Hdrop.
    { intros Hno. destruct H1 as [A1 A2 A3 A4 A5]. split; cbn [on_nodes on_flight N'] in *; auto.
      - intros q' Hq'. apply A3. by eapply elem_of_delete.
      - intros u y q' Hy Hq'. destruct (A4 u y q' Hy Hq') as [Hf|Har]; [|by right].
        destruct (elem_of_delete_or _ _ _ _ Ej Hf) as [?| ->]; [by left|]. by right. }
    destruct (arrival q) as [r|] eqn:Er.
    2: { apply Hdrop. intros c z _ _ o Eo Ho. exfalso. rewrite Eo, (frag_arrival _ o Ho) in Er. done. }
    pose proof (arriving N q r (l_flight _ _ H1) Hq Er) as Hpr. 
    destruct (cfgs !! po_to q) as [c|] eqn:Hu.
    2: { rewrite oact_none by done. apply Hdrop. intros c z Hc. congruence. }
    assert (is_Some (on_nodes N !! po_to q)) as [y Hy] by (apply (l_dom _ _ H1); by eexists).
    rewrite (oact_eq cfgs N' (po_to q) c y _ Hu Hy). cbn [on_nodes on_flight N'].
    apply (L_preserve hd hd N (po_to q) c y _ (delete j (on_flight N))); auto.
    { apply (node_add (po_to q) c Hu); [done|]. by apply (l_node _ _ H1 (po_to q)). }
    { intros q' Hq'. by eapply elem_of_delete. }
    intros q' Hq'. destruct (elem_of_delete_or _ _ _ _ Ej Hq') as [?| ->]; [by left|]. right. split; [done|].
    intros o Eo Ho. assert (r = Recv (Z.of_nat (len (gobj_marshal o))) o) as -> by (rewrite Eo, (frag_arrival _ o Ho) in Er; by injection Er as <-).
    by apply (add_frag (po_to q) c Hu).
  - apply inside; auto. intros c y Hu Hn. by apply (node_run u).
  - apply inside; auto. intros c y Hu Hn. by apply (node_fire u).
  - apply inside; auto. intros c y Hu Hn. by apply (node_tick u).
Qed.

Lemma L_init : L [] (onet_init cfgs period sec st).
Proof using HN.
  assert (forall u y, on_nodes (onet_init cfgs period sec st) !! u = Some y -> y = init_pool period sec st) as Hl.
  { intros u y Hy. cbn in Hy. apply lookup_fmap_Some in Hy as (? & <- & _). done. }
  split.
  - intros u. cbn. by rewrite lookup_fmap, fmap_is_Some.
  - intros u c y Hu Hy. rewrite (Hl u y Hy). apply node_init. apply (hn_enough _ _ HN).
  - intros q Hq. by apply elem_of_nil in Hq.
  - intros u y q Hy. rewrite (Hl u y Hy). intros Hq. by apply elem_of_nil in Hq.
  - intros u g c y Hg. by apply elem_of_nil in Hg.
Qed.

Lemma L_run l hd N : L hd N -> Forall allowed l ->
  exists hd', L hd' (onet_run cfgs N l) /\ (forall x, x ∈ hd -> x ∈ hd') /\ forall u g, OHand u g ∈ l -> (u, g) ∈ hd'.
Proof using All.
  intros H1 Hl. revert hd N H1. induction Hl as [|ev l He _ IH]; intros hd N H1.
  - exists hd. split_and!; auto. intros u g Hg. by apply elem_of_nil in Hg.
  - destruct (IH _ _ (one_step hd N ev H1 He)) as (hd' & C1 & C3 & C4).
    exists hd'. split_and!; auto.
    + intros x Hx. apply C3, elem_of_app. by right.
    + intros u g [<-|Hg]%elem_of_cons; [|by apply C4]. apply C3. by left.
Qed.

(** ** When everything has come to rest *)
Section rest.
Context (N : onet) (hd : list (string * gobj)) (H1 : L hd N) (Hquiet : oquiescent N).
Lemma done_at u c (y : gpool) d : cfgs !! u = Some c -> on_nodes N !! u = Some y -> owed u c d y -> du_done d (p_st y).
Proof using Hquiet. intros Hu Hy Ho. destruct (proj2 Hquiet u y Hy) as [E1 E2]. by eapply owed_quiet. Qed.
Lemma node_I u c (y : gpool) : cfgs !! u = Some c -> on_nodes N !! u = Some y -> OI u c (p_st y).
Proof using H1. intros Hu Hy. apply (proj1 (pd_ok _ _ _ _ _ _ (l_node _ _ H1 u c y Hu Hy))). Qed.
Lemma duty_done u c (y : gpool) d : cfgs !! u = Some c -> on_nodes N !! u = Some y -> due u c d -> du_when d (p_st y) -> du_done d (p_st y).
Proof using H1 Hquiet. intros Hu Hy Hd Hw. eapply done_at; [exact Hu|exact Hy|]. by apply (pd_duties _ _ _ _ _ _ (l_node _ _ H1 u c y Hu Hy)). Qed.

(** A fragment at one gossiper is, or is no longer needed, at every other one. *)
Lemma shared u v (y z : gpool) w : on_nodes N !! u = Some y -> on_nodes N !! v = Some z -> w ∈ signers (p_st y) -> w ∈ signers (p_st z) \/ enough (p_st z).
Proof using HN H1 Hquiet.
  intros Hy Hz Hw. destruct (decide (u = v)) as [->|Hne]; [assert (z = y) as -> by (pose proof (eq_trans (eq_sym Hz) Hy) as E; by injection E); by left|].
  assert (is_Some (cfgs !! u)) as [c Hu] by (apply (l_dom _ _ H1); by eexists). assert (is_Some (cfgs !! v)) as [d Hv] by (apply (l_dom _ _ H1); by eexists).
  assert (du_done (d_send cfgs e p As acd w v) (p_st y)) as (o & Ho & Hs & Hp).
  { apply (duty_done u c); auto. apply due_send. apply (hn_connected _ _ HN u c Hu). split; [done|by eexists]. }
  assert (object_post v o ∈ posts (t_trace (p_st y))) as Hin by (by apply posts_in).
  destruct (l_sent _ _ H1 u y _ Hy Hin) as [Hf|Har]; [rewrite (proj1 Hquiet) in Hf; by apply elem_of_nil in Hf|].
  pose proof (done_at v d z _ Hv Hz (Har d z Hv Hz o eq_refl Ho)) as Hd. by rewrite <- Hs.
Qed.

Lemma enough_everywhere us : NoDup us -> length us = T ->
  (forall u, u ∈ us -> is_Some (cfgs !! u) /\ exists g, g ∈ As /\ (u, g) ∈ hd) ->
  (forall u (y : gpool), u ∈ us -> on_nodes N !! u = Some y -> NoDup (signers (p_st y))) ->
  forall v (z : gpool), on_nodes N !! v = Some z -> enough (p_st z).
Proof using HN H1 Hquiet.
  intros Hnd Hlen Hus Hdist v z Hz.
  assert (forall l : list string, NoDup l -> T <= length l -> (forall w, w ∈ l -> w ∈ signers (p_st z)) -> enough (p_st z)) as Hfull.
  { intros l Hl Hll Hsub. pose proof (nodup_subset_length l _ Hl Hsub) as Hle. unfold OverlapAccuseNode.enough. rewrite map_length in Hle. lia. }
  destruct (decide (T <= length (bucket (p_st z)))) as [|Hn]; [done|].
  assert (forall u, u ∈ us -> exists y, on_nodes N !! u = Some y /\ (u ∈ signers (p_st y) \/ enough (p_st y))) as Hown.
  { intros u Hu. destruct (Hus u Hu) as [[c Hc] (g & Ha & Hg)]. assert (is_Some (on_nodes N !! u)) as [y Hy] by (apply (l_dom _ _ H1); by eexists).
    exists y. split; [done|]. destruct (done_at u c y _ Hc Hy (l_hand _ _ H1 u g c y Hg Hc Hy Ha)) as [Hin|He]; [|by right].
    exact (duty_done u c y _ Hc Hy (due_own cfgs T e p As acd u c) Hin). }
  assert (forall u y w, on_nodes N !! u = Some y -> w ∈ signers (p_st y) -> w ∈ signers (p_st z)) as Hshare.
  { intros u y w Hy Hw. by destruct (shared u v y z w Hy Hz Hw). }
  apply (Hfull us); auto; [lia|]. intros w Hw. destruct (Hown w Hw) as (y & Hy & [Hs|He]); [by eapply Hshare|].
  exfalso. apply Hn, (Hfull (signers (p_st y))); [by apply (Hdist w)|rewrite map_length; exact He|]. intros x Hx. by eapply Hshare.
Qed.

Lemma convicted v d (z : gpool) : cfgs !! v = Some d -> on_nodes N !! v = Some z -> enough (p_st z) ->
  exists full, e ∈ t_black (p_st z) /\ t_acc_full (p_st z) !! get_id full = Some full /\ g_type full = ACC_FULL /\ g_p0 full = e /\
    verify (gc_crypto d) full = Accept /\ ToMonitor (gc_owner d) full ∈ t_trace (p_st z).
Proof using H1 Hquiet.
  intros Hv Hz He. pose proof (node_I v d z Hv Hz) as HI.
  destruct (duty_done v d z _ Hv Hz (due_full cfgs T e p As acd v d) He) as (f0 & F1 & [F2 F3]).
  destruct (OverlapAccuseNode.oi_ev _ _ _ _ _ _ _ _ _ _ HI f0 _ F1 F2) as [full Hf].
  destruct (OverlapAccuseNode.table_entry _ _ _ _ _ _ _ _ _ _ _ _ _ HI Hf) as (A1 & A2 & A3).
  pose proof (OverlapAccuseNode.oi_tbl _ _ _ _ _ _ _ _ _ _ HI _ _ _ Hf) as Hst.
  assert (g_p0 full = e) as Hp by (injection A2; congruence).
  assert (convicts full) as Hc by done.
  exists full. split_and!; auto.
  - exact (duty_done v d z _ Hv Hz (due_black cfgs T e p As acd v d full Hc) Hst).
  - rewrite A2. exact Hf.
  - by apply obj_kind_obj in A3.
  - exact (duty_done v d z _ Hv Hz (due_report cfgs T e p As acd v d full Hc) Hst).
Qed.
End rest.
End net.

Definition ohanded_about (e : string) (l : list oevent) (g : gobj) : Prop :=
  (exists v, OHand v g ∈ l) /\ g_p0 g = e /\ statement g.

Section main.
Context {P : prims} (cfgs : gmap string (gconf P)) (T : nat) (HN : honest_network cfgs T).
Context (Hagg : agg_correct P) (Hperm : fast_perm P) (Hdeser : forall sg : bls_sig P, bls_deser (bls_ser sg) = Some sg).
Context (e p : string) (As : list gobj) (HA : accusations cfgs e p As) (l : list oevent) (Hl : oundisturbed e As l).
Notation stm := (ohanded_about e l).
Notation acd := (oaccuser As l).

Lemma ostm_ok g : stm g -> g_signer g <> "" /\ forall h, stm h -> get_id h = get_id g -> (g_s0 h, g_s1 h) = (g_s0 g, g_s1 g).
Proof using HA Hl.
  intros ([v Hv] & Hp & Hs). destruct (Hl v g Hv Hp) as [Ha|[_ H]]; [exfalso; by apply (not_an_accusation cfgs e p As HA g)|].
  destruct (H Hs) as [H1 H2]. split; [done|]. intros h ([w Hw] & _) Hi. by eapply H2.
Qed.

Lemma oevents_fair : Forall (allowed cfgs e As acd stm) l.
Proof using HA Hl.
  apply Forall_forall. intros [u g|j|u j|u j|u ? ? ?] Hx; try done. cbn. split.
  - intros Hp. destruct (Hl u g Hx Hp) as [Ha|[Hn Hs]].
    + rewrite (acc_kind cfgs e p As HA g Ha). split; [done|]. by exists g.
    + assert (forall k, obj_kind g = KObj k -> g_type g = okind_type k) as Hty by (intros k; apply obj_kind_obj).
      destruct (obj_kind g) as [[[]| |f]|[]|] eqn:Ek; try done.
      * split_and!; eauto. left. exact (Hty _ eq_refl).
      * split_and!; eauto. right. exact (Hty _ eq_refl).
      * exfalso. apply Hn. rewrite (Hty _ eq_refl). cbn. right. by left.
      * apply Hn. rewrite (Hty _ eq_refl). by left.
      * exfalso. apply Hn. apply obj_kind_frag in Ek. rewrite Ek. cbn. do 2 right. by left.
  - intros [Hk Hp]. destruct (Hl u g Hx Hp) as [Ha|[Hn _]]; [rewrite (acc_kind cfgs e p As HA g Ha) in Hk; done|].
    apply Hn. apply obj_kind_obj in Hk. rewrite Hk. cbn. do 3 right. by left.
Qed.

(** Enough accusers whose handlers stored no fragment twice: everybody blacklists the entity. *)
Lemma overlapping_accused period sec st us : let N := onet_run cfgs (onet_init cfgs period sec st) l in
  oquiescent N -> NoDup us -> length us = T -> (forall u, u ∈ us -> is_Some (cfgs !! u) /\ oaccuser As l u) ->
  (forall u y, u ∈ us -> on_nodes N !! u = Some y -> NoDup (accusation_signers p e (p_st y))) ->
  forall v d, cfgs !! v = Some d -> exists y full, on_nodes N !! v = Some y /\ e ∈ t_black (p_st y) /\
    t_acc_full (p_st y) !! get_id full = Some full /\ g_type full = ACC_FULL /\ g_p0 full = e /\ verify (gc_crypto d) full = Accept /\
    ToMonitor (gc_owner d) full ∈ t_trace (p_st y).
Proof using All.
  intros N Hq Hnd Hlen Hus Hdist v d Hv.
  destruct (L_run cfgs T HN Hagg Hperm Hdeser e p As HA acd stm ostm_ok period sec st l [] _ (L_init cfgs T HN e p As acd stm period sec st) oevents_fair) as (hd & H1 & _ & Hhd).
  fold N in H1.
  assert (is_Some (on_nodes N !! v)) as [y Hy] by (apply (l_dom _ _ _ _ _ _ _ _ _ H1); by eexists).
  assert (enough T e p (p_st y)) as He.
  { eapply (enough_everywhere cfgs T HN e p As acd stm N hd H1 Hq us Hnd Hlen); [| |exact Hy].
    - intros u Hu. destruct (Hus u Hu) as [Hs (a & Ha & Hin)]. split; [done|]. exists a. auto.
    - exact Hdist. }
  destruct (convicted cfgs T e p As acd stm N hd H1 Hq v d y Hv Hy He) as (full & F). by exists y, full.
Qed.

(** A gossiper blacklists the entity only if it has stored that many fragments, all of
    gossipers that were handed an accusation. *)
Lemma overlapping_only period sec st v (y : gpool) : let N := onet_run cfgs (onet_init cfgs period sec st) l in
  on_nodes N !! v = Some y -> e ∈ t_black (p_st y) ->
  T <= length (accusation_signers p e (p_st y)) /\
  forall u, u ∈ accusation_signers p e (p_st y) -> is_Some (cfgs !! u) /\ oaccuser As l u.
Proof using All.
  intros N Hy Hb.
  destruct (L_run cfgs T HN Hagg Hperm Hdeser e p As HA acd stm ostm_ok period sec st l [] _ (L_init cfgs T HN e p As acd stm period sec st) oevents_fair) as (hd & H1 & _ & Hhd).
  fold N in H1.
  assert (is_Some (cfgs !! v)) as [d Hv] by (apply (l_dom _ _ _ _ _ _ _ _ _ H1); by eexists).
  pose proof (node_I cfgs T e p As acd stm N hd H1 v d y Hv Hy) as HI. split.
  - unfold accusation_signers. rewrite map_length. exact (OverlapAccuseNode.oi_det _ _ _ _ _ _ _ _ _ _ HI (OverlapAccuseNode.oi_black _ _ _ _ _ _ _ _ _ _ HI Hb)).
  - intros u Hu. unfold accusation_signers in Hu. apply elem_of_list_fmap in Hu as (o & -> & Ho).
    destruct (OverlapAccuseNode.bucket_frag cfgs T e p As HA acd stm v d (p_st y) o HI Ho) as (w & dw & a & Hw & Hac & Ha & ->).
    destruct (acc_fields cfgs e p As HA dw a Ha) as (_ & _ & _ & _ & _ & _ & _ & ->). destruct (hn_self _ _ HN w dw Hw) as [-> _]. split; [by eexists|done].
Qed.
End main.
