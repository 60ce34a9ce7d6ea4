(** Versions of a statement handed to different gossipers are detected by
    all of them, even though handlers overlap. *)
From Verif Require Import Bytes Hex Json Types Crypto Verify Prog Gossiper Network Overlap SpecVerify SpecGossiper SpecNetwork SpecOverlap SpecDetect SpecOverlapDetect ProgFacts Duty DutyMore GstFacts CodecFacts CryptoFacts VerifyFacts WireFacts GWalk GossiperInv GossiperSeq GossiperEvidence GossiperStep GossiperSeqInv GossiperConflict NetworkFacts OverlapFacts DetectNode DetectStep DetectFacts OverlapDetectNode.
From Coq Require Import Lia.
Open Scope string_scope.

Section net.
Context {P : prims} (cfgs : gmap string (gconf P)) (HN : connected cfgs).
Context (a : gobj) (Ha : statement a) (Hsig : g_signer a <> "") (p sec st : string).
Notation e := (g_p0 a).
Notation i := (get_id a).
Notation f := (af a).
Notation harmless := (harmless cfgs a).
Notation OI c := (OverlapDetectNode.OI cfgs a c).
Notation OR := (OR a).
Notation det := (det a).
Notation verin := (verin a).
Notation d_det := (d_det a).
Notation d_ver := (d_ver a).
Notation owed c Q := (owed (OI c Q) (λ _, True) OR).
Notation node c Q := (pool_dut (OI c Q) OR Etok (λ _, True) (due a c)).
Notation any := (λ _ : gobj, True).

Definition moved (c : gconf P) (Q : gobj -> Prop) (y y' : gpool) : Prop :=
  node c Q y' /\ OR (p_st y) (p_st y') /\ forall d, lasting OR d -> (forall t, ~ du_task d t) -> owed c Q d y -> owed c Q d y'.

Section one.
Context (u : string) (c : gconf P) (Hu : cfgs !! u = Some c).
Local Instance pre : PreOrder OR := OR_pre a c.
Lemma known : exists u, cfgs !! u = Some c. Proof using Hu. by exists u. Qed.
Lemma positive : 0 < cc_threshold (gc_crypto c). Proof using Hu HN. by apply (cn_threshold _ HN u c). Qed.
Notation walk Q := (walk_versions cfgs a Ha Hsig c known positive Q).
Lemma stable (Q : gobj -> Prop) t s s' : Etok t s -> OR s s' -> Etok t s'.
Proof using All. apply (w_tok _ _ _ _ _ _ _ (walk Q)). Qed.
Lemma starts (Q : gobj -> Prop) t s : Etok t s -> safe (OI c Q) OR Etok (λ _, True) (λ _ _, True) (start_task c t) s.
Proof using All. intros H. by eapply s_start; [apply (walk Q)|]. Qed.

Lemma node_run (Q : gobj -> Prop) j y : node c Q y -> moved c Q y (thread_step j y).
Proof using All.
  intros Hy. destruct (pd_thread (start_task c) (OI c Q) OR Etok (λ _, True) (due a c) (stable Q) (starts Q) (due_lasting a c) (due_tasks a c) (dutiful_task cfgs a c Q) j y Hy) as [A1 A2].
  split_and!; auto. intros d Hd _. pose proof (proj1 (pd_ok _ _ _ _ _ _ Hy)). pose proof (proj1 (pd_ok _ _ _ _ _ _ A1)). apply (owed_thread (OI c Q) OR); auto.
Qed.
Lemma node_fire (Q : gobj -> Prop) j y : node c Q y -> moved c Q y (task_start (start_task c) j y).
Proof using All.
  intros Hy. split_and!.
  - by apply (pd_fire (start_task c) (OI c Q) OR Etok (λ _, True) (due a c) (stable Q) (starts Q) (due_lasting a c) (due_tasks a c) (dutiful_task cfgs a c Q) j y Hy).
  - unfold task_start. by destruct (p_tasks y !! j).
  - intros d _ Hd. by apply owed_fire.
Qed.
Lemma clock_OI (Q : gobj -> Prop) s q x t : OI c Q s -> GWalk.keeps (OI c Q) OR s (set_clock s q x t).
Proof using.
  intros HI. apply (OI_frame cfgs a c Q s _ []); auto; autorewrite with gst; auto; try (intros; by autorewrite with gst).
  - apply (DI_frame cfgs a c s); auto; try (intros; by autorewrite with gst); [apply HI| |intros v ep g; autorewrite with gst; by left].
    apply GI_frame; [..|apply HI]; intros; by autorewrite with gst.
  - intros j o. autorewrite with gst. apply (oi_pay _ _ _ _ _ HI).
  - by rewrite app_nil_r.
  - by intros x' ?%elem_of_nil.
Qed.
Lemma node_tick (Q : gobj -> Prop) q x t y : node c Q y -> moved c Q y (mkpool (set_clock (p_st y) q x t) (p_threads y) (p_tasks y) (p_crashes y)).
Proof using All.
  intros Hy. destruct (clock_OI Q (p_st y) q x t) as [K1 K2]; [apply (proj1 (pd_ok _ _ _ _ _ _ Hy))|]. split_and!; auto.
  - apply (pd_env (OI c Q) OR Etok (λ _, True) (due a c) (stable Q) (due_lasting a c)); auto.
    intros d [g v Hk Hv|g Hg|g Hg] H; cbn [du_when OverlapDetectNode.d_send OverlapDetectNode.d_black OverlapDetectNode.d_report] in *; autorewrite with gst in H; exact H.
  - intros d Hd _ Ho. by apply (owed_env (OI c Q) OR d y).
Qed.

Definition proper (ev : gevent) : Prop := match ev with Recv n g => n = Z.of_nat (len (gobj_marshal g)) /\ harmless g | _ => True end.
Definition fits (Q : gobj -> Prop) (s : gst) (ev : gevent) : Prop :=
  match ev with Recv _ g => get_id g = i -> Q g \/ (verin s /\ forall h, Q h -> differ h g) | _ => True end.

Lemma node_add (Q : gobj -> Prop) ev y : proper ev -> fits Q (p_st y) ev -> node c Q y -> moved c Q y (thread_add (request_prog c ev) y).
Proof using All.
  intros He Hf Hy. split_and!; [|reflexivity|intros d _ _; by apply owed_add].
  apply pd_add; [| |done].
  - destruct ev as [n g|n|n|j|q x t|]; cbn [request_prog proper fits] in *; try done.
    + destruct He as [-> Hg]. by apply (safe_object cfgs a Ha Hsig c known positive).
    + apply (safe_notification cfgs a Ha Hsig c known positive).
    + apply (safe_request cfgs a Ha Hsig c known positive).
  - destruct ev as [n g|n|n|j|q x t|]; cbn [request_prog]; try done; [apply dutiful_object|apply dutiful_notification|apply dutiful_request].
Qed.

(** What an arriving object leads to. *)
Lemma add_con (Q : gobj -> Prop) n g y : proves a g -> verify (gc_crypto c) g = Accept -> owed c Q d_det (thread_add (request_prog c (Recv n g)) y).
Proof using. intros Hg Hv. apply owed_new. cbn [request_prog]. rewrite con_request by apply Hg. by apply pays_con. Qed.
Lemma add_ver (Q : gobj -> Prop) g y : harmless g -> get_id g = i -> verify (gc_crypto c) g = Accept ->
  owed c Q (d_ver g) (thread_add (request_prog c (Recv (Z.of_nat (len (gobj_marshal g))) g)) y).
Proof using All.
  intros Hg Hi Hv. apply owed_new. cbn [request_prog]. rewrite (version_request cfgs a Ha c known) by done. by apply (pays_ver cfgs a Ha Hsig c known positive).
Qed.
Lemma add_diff (Q : gobj -> Prop) g y : harmless g -> get_id g = i -> verify (gc_crypto c) g = Accept -> verin (p_st y) -> (forall h, Q h -> differ h g) ->
  owed c Q d_det (thread_add (request_prog c (Recv (Z.of_nat (len (gobj_marshal g))) g)) y).
Proof using All.
  intros Hg Hi Hv Hi' HQ. apply owed_new. cbn [request_prog]. rewrite (version_request cfgs a Ha c known) by done. by apply (pays_diff cfgs a Ha Hsig c known positive).
Qed.
End one.

Lemma node_init (Q : gobj -> Prop) (c : gconf P) : node c Q (init_pool p sec st).
Proof using.
  assert (OI c Q (init_gst p sec st)) as HI.
  { split; cbn.
    - split_and!; cbn; [apply GI_init| | | |].
      + intros j o. by rewrite lookup_empty.
      + intros k j o. destruct k as [[]| |[]]; cbn; by rewrite lookup_empty.
      + intros u ep g Hg. by apply elem_of_nil in Hg.
      + intros j x. by rewrite lookup_empty.
    - intros k j o. destruct k as [[]| |[]]; cbn; by rewrite lookup_empty.
    - intros g k Hg. by apply elem_of_nil in Hg.
    - intros g Hg. by apply elem_of_nil in Hg.
    - intros g Hg. by apply elem_of_nil in Hg.
    - intros Hb. by apply elem_of_empty in Hb.
    - intros j o. by rewrite lookup_empty.
    - intros v ep g Hg. by apply elem_of_nil in Hg. }
  split; [|by constructor|].
  - split_and!; cbn; [done|by constructor|by constructor|by constructor].
  - intros d [g v Hk Hv|g Hg|g Hg] Hw; cbn in Hw; by apply elem_of_nil in Hw.
Qed.

(** ** The network *)
Context (hands : list (string * gobj)).
(** What gossiper [u] may store as long as it has only been handed versions. *)
Definition own (u : string) (h : gobj) : Prop := exists g, (u, g) ∈ hands /\ get_id g = i /\ g_s0 g = g_s0 h /\ g_s1 g = g_s1 h.
Context (Hharm : forall u g, (u, g) ∈ hands -> harmless g).
Context (Hone : forall u g h, (u, g) ∈ hands -> (u, h) ∈ hands -> get_id g = i -> get_id h = i -> (g_s0 g, g_s1 g) = (g_s0 h, g_s1 h)).

Lemma own_same u g h : own u g -> own u h -> (g_s0 g, g_s1 g) = (g_s0 h, g_s1 h).
Proof using Hone. intros (g' & G1 & G2 & G3 & G4) (h' & H1 & H2 & H3 & H4). pose proof (Hone u g' h' G1 H1 G2 H2) as E. congruence. Qed.

Lemma own_or u c s g : OI c (own u) s -> verin s -> own u g \/ forall h, own u h -> differ h g.
Proof using Ha Hone.
  intros HI (h & Hh & Hi). pose proof (oi_q _ _ _ _ _ HI h Hh Hi) as Hq.
  destruct (decide ((g_s0 h, g_s1 h) = (g_s0 g, g_s1 g))) as [E|E].
  - left. injection E as E1 E2. destruct Hq as (g' & G1 & G2 & G3 & G4). exists g'. split_and!; auto; congruence.
  - right. intros h' Hh' E'. apply E. rewrite <- E'. by apply (own_same u).
Qed.

Definition arrived (c : gconf P) (z : gpool) (q : post) : Prop := forall g, q = object_post (po_to q) g -> verify (gc_crypto c) g = Accept ->
  (proves a g -> owed c any d_det z) /\ (get_id g = i -> owed c any (d_ver g) z).

Record L1 (hd : list (string * gobj)) (N : onet) : Prop := mkL1 {
  l1_dom : forall u, is_Some (on_nodes N !! u) <-> is_Some (cfgs !! u);
  l1_node : forall u c (y : gpool), cfgs !! u = Some c -> on_nodes N !! u = Some y -> node c any y;
  l1_flight : forall q, q ∈ on_flight N -> good_msg cfgs a (po_path q) (po_msg q);
  l1_sent : forall u (y : gpool) q, on_nodes N !! u = Some y -> q ∈ posts (t_trace (p_st y)) -> q ∈ on_flight N \/
    forall c (z : gpool), cfgs !! po_to q = Some c -> on_nodes N !! po_to q = Some z -> arrived c z q;
  l1_hand : forall u g c (y : gpool), (u, g) ∈ hd -> cfgs !! u = Some c -> on_nodes N !! u = Some y -> get_id g = i ->
    verify (gc_crypto c) g = Accept -> owed c any (d_ver g) y
}.

Definition no_versions (N : onet) : Prop := forall q g, q ∈ on_flight N -> po_msg q = MObj g -> get_id g <> i.
(** Nobody has stored a version, or gossiper [u] has, and only its own. *)
Definition early (N : onet) : Prop := no_versions N /\
  forall u c (y : gpool), cfgs !! u = Some c -> on_nodes N !! u = Some y -> node c (own u) y /\ ~ verin (p_st y).
Definition first (N : onet) (u : string) : Prop := exists c (y : gpool), cfgs !! u = Some c /\ on_nodes N !! u = Some y /\ node c (own u) y /\ verin (p_st y) /\
  forall w (z : gpool) g, on_nodes N !! w = Some z -> object_post u g ∈ posts (t_trace (p_st z)) -> get_id g = i -> verify (gc_crypto c) g = Accept ->
    object_post u g ∈ on_flight N \/ own u g \/ owed c (own u) d_det y.
Definition L2 (N : onet) : Prop := early N \/ exists u, first N u.

Lemma moved_arrived c y y' q : moved c any y y' -> arrived c y q -> arrived c y' q.
Proof using.
  intros (_ & _ & Hk) Har g Hq Hv. destruct (Har g Hq Hv) as [A1 A2].
  split; intros H; apply Hk; auto; first [apply det_lasting|apply ver_lasting].
Qed.

Lemma posts_in q tr : q ∈ posts tr <-> ToGossiper (po_to q) (po_path q) (po_msg q) ∈ tr.
Proof using.
  unfold posts. rewrite elem_of_list_omap. split.
  - intros (x & Hx & Eq). destruct x; try done. injection Eq as <-. done.
  - intros H. eexists. split; [exact H|]. by destruct q.
Qed.

Lemma L1_preserve hd hd' N u c (y y' : gpool) F : L1 hd N -> cfgs !! u = Some c -> on_nodes N !! u = Some y -> moved c any y y' ->
  (forall q, q ∈ F -> q ∈ on_flight N) ->
  (forall q, q ∈ on_flight N -> q ∈ F \/ po_to q = u /\ arrived c y' q) ->
  (forall v g, (v, g) ∈ hd' -> (v, g) ∈ hd \/ v = u /\ (get_id g = i -> verify (gc_crypto c) g = Accept -> owed c any (d_ver g) y')) ->
  L1 hd' (mkonet (<[u := y']> (on_nodes N)) (F ++ posts (drop (length (t_trace (p_st y))) (t_trace (p_st y')))))%list.
Proof using.
  intros [A1 A2 A3 A4 A5] Hu Hy Hm HF HF' Hh. pose proof Hm as (Hy' & HR & Hk).
  destruct (proj1 HR) as [suf Es]. assert (drop (length (t_trace (p_st y))) (t_trace (p_st y')) = suf) as -> by (by rewrite Es, drop_app).
  assert (forall v z, <[u:=y']> (on_nodes N) !! v = Some z -> (v = u /\ z = y') \/ (v <> u /\ on_nodes N !! v = Some z)) as Hl.
  { intros v z. rewrite lookup_insert_Some. intros [[<- <-]|[? ?]]; auto. }
  split; cbn [on_nodes on_flight].
  - intros v. destruct (decide (v = u)) as [->|Hn]; [rewrite lookup_insert|by rewrite lookup_insert_ne]. split; intros _; eauto.
  - intros v d z Hv Hz. destruct (Hl v z Hz) as [[-> ->]|[_ Hz']]; [by assert (d = c) as -> by congruence|by apply (A2 v)].
  - intros q Hq. apply elem_of_app in Hq as [Hq|Hq]; [by apply A3, HF|].
    destruct (pd_ok _ _ _ _ _ _ Hy') as (HI & _). destruct (oi_di _ _ _ _ _ HI) as (_ & _ & _ & H4 & _). apply (H4 (po_to q)).
    rewrite Es. apply elem_of_app. right. by apply posts_in.
  - intros v z q Hz Hq.
    assert (q ∈ posts suf \/ exists v z, on_nodes N !! v = Some z /\ q ∈ posts (t_trace (p_st z))) as [Hnew|(v' & z' & Hz' & Hq')].
    { destruct (Hl v z Hz) as [[-> ->]|[_ Hz']]; [|right; eauto]. rewrite Es, posts_app in Hq. apply elem_of_app in Hq as [Hq|Hq]; [right; eauto|by left]. }
    { left. apply elem_of_app. by right. }
    destruct (A4 v' z' q Hz' Hq') as [Hin|Harr].
    + destruct (HF' q Hin) as [?|[Eq Har]]; [left; apply elem_of_app; by left|]. right. rewrite Eq. intros d z'' Hd. rewrite lookup_insert. intros [= <-].
      by assert (d = c) as -> by congruence.
    + right. intros d z'' Hd Hz''. destruct (Hl _ _ Hz'') as [[Eq ->]|[_ Hz3]]; [|by apply Harr].
      rewrite Eq in *. assert (d = c) as -> by congruence. eapply moved_arrived; [exact Hm|]. by apply Harr.
  - intros v g d z Hg Hd Hz Hi Hv. destruct (Hl v z Hz) as [[-> ->]|[Hn Hz']].
    + assert (d = c) as -> by congruence. destruct (Hh u g Hg) as [Hg'|[_ Hg']]; [|by apply Hg'].
      apply Hk; [apply ver_lasting|by intros t []|]. by apply (A5 u).
    + destruct (Hh v g Hg) as [Hg'|[? _]]; [by apply (A5 v)|done].
Qed.

Lemma verin_dec c (Q : gobj -> Prop) s : OI c Q s -> verin s \/ ~ verin s.
Proof using Ha.
  intros HI. destruct (get_tbl s (OInit f) !! i) as [o|] eqn:Eo.
  - left. exists o. split; [by eapply (oi_tbl _ _ _ _ _ HI)|]. by destruct (table_entry _ _ _ _ _ _ _ _ HI Eo) as (_ & ? & _).
  - right. intros (g & Hg & Hi). destruct (stored_version cfgs a Ha c Q s g HI Hg Hi) as (o & Ho & _). congruence.
Qed.

Lemma L2_preserve N u c (y y' : gpool) F : (forall w, is_Some (on_nodes N !! w) <-> is_Some (cfgs !! w)) -> L2 N -> cfgs !! u = Some c -> on_nodes N !! u = Some y -> OR (p_st y) (p_st y') ->
  (no_versions N \/ verin (p_st y) -> node c (own u) y -> moved c (own u) y y') ->
  (forall q, q ∈ F -> q ∈ on_flight N) ->
  (forall q, q ∈ on_flight N -> q ∈ F \/ po_to q = u /\ forall g, q = object_post u g -> get_id g = i -> verify (gc_crypto c) g = Accept ->
     verin (p_st y) -> node c (own u) y -> own u g \/ owed c (own u) d_det y') ->
  L2 (mkonet (<[u := y']> (on_nodes N)) (F ++ posts (drop (length (t_trace (p_st y))) (t_trace (p_st y')))))%list.
Proof using Ha Hone.
  intros Hdom HL Hu Hy HR Hm HF HF'.
  destruct (proj1 HR) as [suf Es]. assert (drop (length (t_trace (p_st y))) (t_trace (p_st y')) = suf) as -> by (by rewrite Es, drop_app).
  assert (forall v z, <[u:=y']> (on_nodes N) !! v = Some z -> (v = u /\ z = y') \/ (v <> u /\ on_nodes N !! v = Some z)) as Hl.
  { intros v z. rewrite lookup_insert_Some. intros [[<- <-]|[? ?]]; auto. }
  destruct HL as [[HE1 HE2]|(v & d & z & Hd & Hz & Hnz & Hvz & Hpz)].
  - destruct (HE2 u c y Hu Hy) as [Hny Hvy]. destruct (Hm (or_introl HE1) Hny) as (Hny' & _ & _).
    pose proof (proj1 (pd_ok _ _ _ _ _ _ Hny')) as HI'.
    destruct (verin_dec c (own u) (p_st y') HI') as [Hv|Hv].
    + right. exists u, c, y'. cbn [on_nodes]. rewrite lookup_insert. split_and!; auto. intros w z g Hz Hg Hi _. right; left.
      destruct (Hl w z Hz) as [[-> ->]|[Hw Hz']].
      * apply posts_in in Hg. cbn in Hg. apply (oi_q _ _ _ _ _ HI'); [|done]. by eapply (oi_sent _ _ _ _ _ HI').
      * exfalso. assert (is_Some (cfgs !! w)) as [d Hd] by (apply Hdom; by eexists). destruct (HE2 w d z Hd Hz') as [Hnz Hvz]. apply Hvz. exists g. split; [|done].
        apply posts_in in Hg. eapply (oi_sent _ _ _ _ _ (proj1 (pd_ok _ _ _ _ _ _ Hnz))); [exact Hg|done].
    + left. split; cbn [on_flight on_nodes].
      * intros q g Hq Eg Hi. apply elem_of_app in Hq as [Hq|Hq]; [by eapply HE1; [apply HF|..]|]. apply Hv. exists g. split; [|done].
        apply posts_in in Hq. rewrite Eg in Hq. eapply (oi_sent _ _ _ _ _ HI'); [|done]. rewrite Es. apply elem_of_app. right. exact Hq.
      * intros w d z Hd Hz. destruct (Hl w z Hz) as [[-> ->]|[Hw Hz']]; [by assert (d = c) as -> by congruence|by apply HE2].
  - right. exists v. destruct (decide (v = u)) as [->|Hn].
    + assert (d = c) as -> by congruence. assert (z = y) as -> by congruence. destruct (Hm (or_intror Hvz) Hnz) as (Hny' & _ & Hk).
      exists c, y'. cbn [on_nodes on_flight]. rewrite lookup_insert. split_and!; auto; [by eapply verin_stays|]. intros w z g Hz' Hg Hi Hv.
      assert (object_post u g ∈ posts suf \/ exists w z, on_nodes N !! w = Some z /\ object_post u g ∈ posts (t_trace (p_st z))) as [Hnew|(w' & z' & Hz2 & Hq')].
      { destruct (Hl w z Hz') as [[-> ->]|[_ Hz2]]; [|right; eauto]. rewrite Es, posts_app in Hg. apply elem_of_app in Hg as [Hg|Hg]; [right; eauto|by left]. }
      { left. apply elem_of_app. by right. }
      destruct (Hpz w' z' g Hz2 Hq' Hi Hv) as [Hf|[Ho|Ho]].
      * destruct (HF' _ Hf) as [?|[_ Hc]]; [left; apply elem_of_app; by left|]. right. by apply Hc.
      * right. by left.
      * right. right. apply Hk; auto; apply det_lasting.
    + exists d, z. cbn [on_nodes on_flight]. rewrite lookup_insert_ne by done. split_and!; auto. intros w z' g Hz' Hg Hi Hv.
      assert (object_post v g ∈ posts suf \/ exists w z, on_nodes N !! w = Some z /\ object_post v g ∈ posts (t_trace (p_st z))) as [Hnew|(w' & z2 & Hz2 & Hq')].
      { destruct (Hl w z' Hz') as [[-> ->]|[_ Hz2]]; [|right; eauto]. rewrite Es, posts_app in Hg. apply elem_of_app in Hg as [Hg|Hg]; [right; eauto|by left]. }
      { left. apply elem_of_app. by right. }
      destruct (Hpz w' z2 g Hz2 Hq' Hi Hv) as [Hf|Ho]; [|by right].
      destruct (HF' _ Hf) as [?|[E _]]; [left; apply elem_of_app; by left|]. cbn in E. done.
Qed.

Lemma moved_weak c Q y y' : moved c Q y y' -> OR (p_st y) (p_st y').
Proof using. by intros (_ & H & _). Qed.

(** A step at one gossiper that takes nothing from the posts on their way. *)
Lemma inside hd N u (fn : gconf P -> gpool -> gpool) : L1 hd N -> L2 N ->
  (forall c y Q, cfgs !! u = Some c -> node c Q y -> moved c Q y (fn c y)) -> L1 hd (oact cfgs N u fn) /\ L2 (oact cfgs N u fn).
Proof using Ha Hone.
  intros H1 H2 Hf. destruct (cfgs !! u) as [c|] eqn:Hu; [|by rewrite oact_none].
  assert (is_Some (on_nodes N !! u)) as [y Hy] by (apply (l1_dom _ _ H1); by eexists).
  rewrite (oact_eq cfgs N u c y fn Hu Hy). pose proof (Hf c y any eq_refl (l1_node _ _ H1 u c y Hu Hy)) as Hm. split.
  - apply (L1_preserve hd hd N u c y (fn c y) (on_flight N)); auto.
  - apply (L2_preserve N u c y (fn c y) (on_flight N)); auto; [apply (l1_dom _ _ H1)|by eapply moved_weak].
Qed.

Lemma arriving (N : onet) q ev : (forall q, q ∈ on_flight N -> good_msg cfgs a (po_path q) (po_msg q)) -> q ∈ on_flight N -> arrival q = Some ev ->
  proper ev /\ forall n g, ev = Recv n g -> po_msg q = MObj g.
Proof using.
  intros H3 Hq Eq. pose proof (H3 q Hq) as Hm. unfold arrival in Eq.
  destruct (bool_decide_reflect (po_path q ∈ object_paths)) as [Hpath|].
  - destruct (po_msg q) as [g'|nn] eqn:Em; [|done]. rewrite gobj_roundtrip in Eq. injection Eq as <-. split; [done|]. by intros ? ? [= _ <-].
  - destruct (String.eqb _ _); [destruct (note_decode _); [|done]; by injection Eq as <-|].
    destruct (String.eqb _ _); [destruct (note_decode _); [|done]; by injection Eq as <-|done].
Qed.

Lemma relevant_arrival v g : proves a g \/ get_id g = i -> arrival (object_post v g) = Some (Recv (Z.of_nat (len (gobj_marshal g))) g).
Proof using Ha.
  intros H. apply object_arrival; destruct H as [[H _]|H].
  - by rewrite H.
  - rewrite (same_kind a Ha g H). destruct (af_kind a Ha) as [Hf _]. by destruct f.
  - by rewrite H.
  - by rewrite (same_kind a Ha g H).
Qed.

Lemma one_step hd N ev : L1 hd N -> L2 N -> (forall x, x ∈ hand_of ev -> x ∈ hands) -> L1 (hand_of ev ++ hd)%list (onet_step cfgs N ev) /\ L2 (onet_step cfgs N ev).
Proof using All.
  intros H1 H2 Hh. destruct ev as [u g|j|u j|u j|u q x t]; cbn [onet_step hand_of app] in *.
  - assert ((u, g) ∈ hands) as Hug by (apply Hh; by left). pose proof (Hharm u g Hug) as Hg.
    destruct (cfgs !! u) as [c|] eqn:Hu.
    2: { rewrite oact_none by done. split; [|done]. destruct H1 as [A1 A2 A3 A4 A5]. split; auto.
         intros v h d y [[= -> ->]|Hin]%elem_of_cons; [congruence|by apply A5]. }
    assert (is_Some (on_nodes N !! u)) as [y Hy] by (apply (l1_dom _ _ H1); by eexists).
    rewrite (oact_eq cfgs N u c y _ Hu Hy). set (r := Recv (Z.of_nat (len (gobj_marshal g))) g) in *.
    assert (moved c any y (thread_add (request_prog c r) y)) as Hm.
    { apply (node_add u c Hu any r y); [done|by left|]. by apply (l1_node _ _ H1 u). }
    split.
    + apply (L1_preserve hd _ N u c y _ (on_flight N)); auto. intros v h [[= -> ->]|Hin]%elem_of_cons; [|by left]. right. split; [done|].
      intros Hi Hv. by apply (add_ver u c Hu).
    + apply (L2_preserve N u c y _ (on_flight N)); auto; [apply (l1_dom _ _ H1)|by eapply moved_weak|].
      intros _ Hn. apply (node_add u c Hu (own u) r y); [done| |done]. intros Hi. left. exists g. by split_and!.
  - destruct (on_flight N !! j) as [q|] eqn:Ej; [|done]. pose proof (elem_of_list_lookup_2 _ _ _ Ej) as Hq.
    set (N' := mkonet (on_nodes N) (delete j (on_flight N))).
    destruct (arrival q) as [r|] eqn:Er.
    2: { assert (L1 hd N') as HL1.
         { destruct H1 as [A1 A2 A3 A4 A5]. split; cbn [on_nodes on_flight N'] in *; auto.
           - intros q' Hq'. apply A3. by eapply elem_of_delete.
           - intros u y q' Hy Hq'. destruct (A4 u y q' Hy Hq') as [Hf|Har]; [|by right].
             destruct (elem_of_delete_or _ _ _ _ Ej Hf) as [?| ->]; [by left|]. right. intros c z Hc Hz g Eg Hv.
             split; intros Hr; exfalso; [rewrite Eg, (relevant_arrival _ g (or_introl Hr)) in Er|rewrite Eg, (relevant_arrival _ g (or_intror Hr)) in Er]; done. }
         split; [done|]. destruct H2 as [[HE1 HE2]|(u & c & y & Hu & Hy & Hn & Hv & Hp)].
         - left. split; [|done]. intros q' g Hq'. apply HE1. exact (elem_of_delete _ _ _ Hq').
         - right. exists u, c, y. split_and!; auto. intros w z g Hz Hg Hi Hver. destruct (Hp w z g Hz Hg Hi Hver) as [Hf|Ho]; [|by right].
           destruct (elem_of_delete_or _ _ _ _ Ej Hf) as [?|E]; [by left|]. exfalso. rewrite <- E, (relevant_arrival u g (or_intror Hi)) in Er. done. }
    destruct (arriving N q r (l1_flight _ _ H1) Hq Er) as [Hpr Hmsg]. set (u := po_to q) in *.
    assert (forall g, q = object_post u g -> proves a g \/ get_id g = i -> r = Recv (Z.of_nat (len (gobj_marshal g))) g) as Hrel.
    { intros g Eg Hr. rewrite Eg, (relevant_arrival u g Hr) in Er. by injection Er as <-. }
    destruct (cfgs !! u) as [c|] eqn:Hu.
    2: { rewrite oact_none by done. split.
         - destruct H1 as [A1 A2 A3 A4 A5]. split; cbn [on_nodes on_flight N'] in *; auto.
           + intros q' Hq'. apply A3. by eapply elem_of_delete.
           + intros w y q' Hy Hq'. destruct (A4 w y q' Hy Hq') as [Hf|Har]; [|by right].
             destruct (elem_of_delete_or _ _ _ _ Ej Hf) as [?| ->]; [by left|]. right. intros c z Hc. fold u in Hc. congruence.
         - destruct H2 as [[HE1 HE2]|(w & c & y & Hw & Hy & Hn & Hv & Hp)].
           + left. split; [|done]. intros q' g Hq'. apply HE1. exact (elem_of_delete _ _ _ Hq').
           + right. exists w, c, y. split_and!; auto. intros w' z g Hz Hg Hi Hver. destruct (Hp w' z g Hz Hg Hi Hver) as [Hf|Ho]; [|by right].
             destruct (elem_of_delete_or _ _ _ _ Ej Hf) as [?|E]; [by left|]. exfalso. unfold u in Hu. rewrite <- E in Hu. cbn in Hu. congruence. }
    assert (is_Some (on_nodes N !! u)) as [y Hy] by (apply (l1_dom _ _ H1); by eexists).
    rewrite (oact_eq cfgs N' u c y _ Hu Hy). cbn [on_nodes on_flight N'].
    assert (moved c any y (thread_add (request_prog c r) y)) as Hm.
    { apply (node_add u c Hu any r y); [done|destruct r; try done; by left|]. by apply (l1_node _ _ H1 u). }
    split.
    + apply (L1_preserve hd hd N u c y _ (delete j (on_flight N))); auto; [intros q'; apply elem_of_delete|].
      intros q' Hq'. destruct (elem_of_delete_or _ _ _ _ Ej Hq') as [?| ->]; [by left|]. right. split; [done|]. fold u. intros g Eg Hv.
      fold u in Eg. split; intros Hx.
      * pose proof (Hrel g Eg (or_introl Hx)) as Hr. subst r. by apply (add_con c).
      * pose proof (Hrel g Eg (or_intror Hx)) as Hr. subst r. apply (add_ver u c Hu); try done. by destruct Hpr.
    + apply (L2_preserve N u c y _ (delete j (on_flight N))); auto; [apply (l1_dom _ _ H1)|by eapply moved_weak| |intros q'; apply elem_of_delete|].
      * intros Hc Hn. apply (node_add u c Hu (own u) r y); [done| |done]. destruct r as [n g|n|n|k|k1 k2 k3|] eqn:Err; try done. intros Hi.
        pose proof (Hmsg n g eq_refl) as Eg. destruct Hc as [Hc|Hc]; [by destruct (Hc q g Hq Eg)|].
        destruct (own_or u c (p_st y) g (proj1 (pd_ok _ _ _ _ _ _ Hn)) Hc); auto.
      * intros q' Hq'. destruct (elem_of_delete_or _ _ _ _ Ej Hq') as [?| ->]; [by left|]. right. split; [done|]. intros g Eg Hi Hv Hver Hn.
        destruct (own_or u c (p_st y) g (proj1 (pd_ok _ _ _ _ _ _ Hn)) Hver) as [Ho|Ho]; [by left|]. right.
        pose proof (Hrel g Eg (or_intror Hi)) as Hr. subst r. apply (add_diff u c Hu); try done. by destruct Hpr.
  - apply inside; auto. intros c y Q Hu Hn. by apply (node_run u).
  - apply inside; auto. intros c y Q Hu Hn. by apply (node_fire u).
  - apply inside; auto. intros c y Q Hu Hn. by apply (node_tick u).
Qed.

Lemma L_init : L1 [] (onet_init cfgs p sec st) /\ L2 (onet_init cfgs p sec st).
Proof using.
  assert (forall u y, on_nodes (onet_init cfgs p sec st) !! u = Some y -> y = init_pool p sec st) as Hl.
  { intros u y Hy. cbn in Hy. apply lookup_fmap_Some in Hy as (? & <- & _). done. }
  split.
  - split.
    + intros u. cbn. by rewrite lookup_fmap, fmap_is_Some.
    + intros u c y Hu Hy. rewrite (Hl u y Hy). apply node_init.
    + intros q Hq. by apply elem_of_nil in Hq.
    + intros u y q Hy. rewrite (Hl u y Hy). intros Hq. by apply elem_of_nil in Hq.
    + intros u g c y Hg. by apply elem_of_nil in Hg.
  - left. split.
    + intros q g Hq. by apply elem_of_nil in Hq.
    + intros u c y Hu Hy. rewrite (Hl u y Hy). split; [apply node_init|]. intros (g & Hg & _). by apply elem_of_nil in Hg.
Qed.

Lemma L_run l hd N : L1 hd N -> L2 N -> (forall u g, OHand u g ∈ l -> (u, g) ∈ hands) ->
  exists hd', L1 hd' (onet_run cfgs N l) /\ L2 (onet_run cfgs N l) /\ (forall x, x ∈ hd -> x ∈ hd') /\ forall u g, OHand u g ∈ l -> (u, g) ∈ hd'.
Proof using All.
  revert hd N. induction l as [|ev l IH]; intros hd N H1 H2 Hh.
  - exists hd. split_and!; auto. intros u g Hg. by apply elem_of_nil in Hg.
  - destruct (one_step hd N ev H1 H2) as [B1 B2].
    { intros [u g] Hx. apply Hh. destruct ev; cbn in Hx; try (by apply elem_of_nil in Hx). apply elem_of_list_singleton in Hx as [= -> ->]. by left. }
    destruct (IH _ _ B1 B2) as (hd' & C1 & C2 & C3 & C4); [intros u g Hg; apply Hh; by right|].
    exists hd'. split_and!; auto.
    + intros x Hx. apply C3, elem_of_app. by right.
    + intros u g [<-|Hg]%elem_of_cons; [|by apply C4]. apply C3. by left.
Qed.

(** ** When everything has come to rest *)
Lemma version_agrees u v c d g : cfgs !! u = Some c -> cfgs !! v = Some d -> get_id g = i -> verify (gc_crypto c) g = Accept -> verify (gc_crypto d) g = Accept.
Proof using Ha HN.
  intros Hu Hv Hi H. destruct (cn_keys _ HN u c v d Hu Hv) as [E1 E2]. rewrite <- H. unfold verify.
  rewrite (same_kind a Ha g Hi). unfold verify_rsa_payload, cc_verify. by rewrite E1, E2.
Qed.

Section rest.
Context (N : onet) (hd : list (string * gobj)) (H1 : L1 hd N) (H2 : L2 N) (Hquiet : oquiescent N).
Lemma done_at u c (y : gpool) d Q : cfgs !! u = Some c -> on_nodes N !! u = Some y -> owed c Q d y -> du_done d (p_st y).
Proof using Hquiet. intros Hu Hy Ho. destruct (proj2 Hquiet u y Hy) as [E1 E2]. by eapply owed_quiet. Qed.

Lemma sent_on u c (y : gpool) g v : cfgs !! u = Some c -> on_nodes N !! u = Some y -> EvStored g ∈ t_trace (p_st y) -> proves a g \/ get_id g = i ->
  v <> u -> is_Some (cfgs !! v) -> object_post v g ∈ posts (t_trace (p_st y)).
Proof using All.
  intros Hu Hy Hg Hr Hn Hv. pose proof (l1_node _ _ H1 u c y Hu Hy) as Hnode. pose proof (proj1 (pd_ok _ _ _ _ _ _ Hnode)) as HI.
  assert (outgoing c g = (endpoint_of (obj_kind g), MObj g)) as Eo.
  { destruct Hr as [[Hk _]|Hi]; [unfold outgoing; by rewrite Hk|]. apply (outgoing_plain cfgs a Ha c (known u c Hu)); [|done]. by apply (oi_harm _ _ _ _ _ HI). }
  assert (du_done (d_send c g v) (p_st y)) as Hd.
  { eapply done_at; [exact Hu|exact Hy|]. eapply (pd_duties _ _ _ _ _ _ Hnode); [|exact Hg]. apply due_send.
    - destruct Hr as [[Hk _]|Hi]; [by left|right]. rewrite (same_kind a Ha g Hi). destruct (af_kind a Ha) as [Hf _]. destruct f; [by left|by right|done].
    - apply (cn_neighbours _ HN u c Hu). done. }
  cbn [du_done OverlapDetectNode.d_send] in Hd. rewrite Eo in Hd. by apply posts_in.
Qed.

Lemma arrived_at u (y : gpool) q c z : on_nodes N !! u = Some y -> q ∈ posts (t_trace (p_st y)) -> cfgs !! po_to q = Some c -> on_nodes N !! po_to q = Some z -> arrived c z q.
Proof using H1 Hquiet.
  intros Hy Hq Hc Hz. destruct (l1_sent _ _ H1 u y q Hy Hq) as [Hf|Har]; [|by apply Har]. rewrite (proj1 Hquiet) in Hf. by apply elem_of_nil in Hf.
Qed.

Lemma det_spreads u c (y : gpool) v d z : cfgs !! u = Some c -> on_nodes N !! u = Some y -> det (p_st y) -> cfgs !! v = Some d -> on_nodes N !! v = Some z -> det (p_st z).
Proof using All.
  intros Hu Hy (con & Hcon & Hp) Hv Hz. destruct (decide (v = u)) as [->|Hn]; [assert (z = y) as -> by (pose proof (eq_trans (eq_sym Hz) Hy) as E; by injection E); by exists con|].
  pose proof (sent_on u c y con v Hu Hy Hcon (or_introl Hp) Hn ltac:(by eexists)) as Hq.
  pose proof (proj1 (pd_ok _ _ _ _ _ _ (l1_node _ _ H1 u c y Hu Hy))) as HI.
  destruct (arrived_at u y _ d z Hy Hq Hv Hz con eq_refl) as [Hd _].
  - apply (proof_agrees cfgs HN a u v c d con Hu Hv). destruct Hp as [Hk He]. split_and!; auto. by eapply stored_ok.
  - apply (done_at v d z (OverlapDetectNode.d_det a) any Hv Hz). by apply Hd.
Qed.

Lemma det_black u c (y : gpool) : cfgs !! u = Some c -> on_nodes N !! u = Some y -> det (p_st y) -> e ∈ t_black (p_st y).
Proof using All.
  intros Hu Hy (con & Hcon & Hp). pose proof (l1_node _ _ H1 u c y Hu Hy) as Hnode.
  apply (done_at u c y (d_black a con) any Hu Hy). eapply (pd_duties _ _ _ _ _ _ Hnode); [|exact Hcon]. by apply due_black.
Qed.

(** Two versions with different signatures, stored anywhere, lead to a proof. *)
Lemma conflict u c (y : gpool) g v d (z : gpool) h : cfgs !! u = Some c -> on_nodes N !! u = Some y -> EvStored g ∈ t_trace (p_st y) -> get_id g = i ->
  cfgs !! v = Some d -> on_nodes N !! v = Some z -> EvStored h ∈ t_trace (p_st z) -> get_id h = i -> differ g h ->
  exists w k x, cfgs !! w = Some k /\ on_nodes N !! w = Some x /\ det (p_st x).
Proof using All.
  intros Hu Hy Hg Gi Hv Hz Hh Hi Hd.
  destruct H2 as [[_ HE]|(w & k & x & Hw & Hx & Hn & Hver & Hp)].
  { exfalso. apply (HE u c y Hu Hy). by exists g. }
  assert (forall v d (z : gpool) h, cfgs !! v = Some d -> on_nodes N !! v = Some z -> EvStored h ∈ t_trace (p_st z) -> get_id h = i -> own w h \/ det (p_st x)) as Hown.
  { clear v d z h Hv Hz Hh Hi Hd. intros v d z h Hv Hz Hh Hi. destruct (decide (v = w)) as [->|Hne].
    - assert (z = x) as -> by (pose proof (eq_trans (eq_sym Hz) Hx) as E; by injection E). left. by apply (oi_q _ _ _ _ _ (proj1 (pd_ok _ _ _ _ _ _ Hn))).
    - destruct (Hp v z h Hz) as [Hf|[Ho|Ho]]; auto.
      + apply (sent_on v d z h w Hv Hz Hh (or_intror Hi)); [done|by eexists].
      + eapply (version_agrees v w d k); auto. pose proof (proj1 (pd_ok _ _ _ _ _ _ (l1_node _ _ H1 v d z Hv Hz))). by eapply stored_ok.
      + rewrite (proj1 Hquiet) in Hf. by apply elem_of_nil in Hf.
      + right. by apply (done_at w k x (OverlapDetectNode.d_det a) (own w) Hw Hx). }
  exists w, k, x. split_and!; auto. destruct (Hown u c y g Hu Hy Hg Gi) as [O1|]; [|done]. destruct (Hown v d z h Hv Hz Hh Hi) as [O2|]; [|done].
  exfalso. apply Hd. by apply (own_same w).
Qed.

Lemma blacklisted u c (y : gpool) : cfgs !! u = Some c -> on_nodes N !! u = Some y -> det (p_st y) ->
  exists con, t_con_init (p_st y) !! get_id con = Some con /\ g_type con = CON_INIT /\ g_p0 con = e /\ verify (gc_crypto c) con = Accept /\
    ToMonitor (gc_owner c) con ∈ t_trace (p_st y).
Proof using H1 Hquiet.
  intros Hu Hy (con & Hcon & Hk & He). pose proof (l1_node _ _ H1 u c y Hu Hy) as Hnode. pose proof (proj1 (pd_ok _ _ _ _ _ _ Hnode)) as HI.
  destruct (oi_ev _ _ _ _ _ HI con OCon Hcon Hk) as [o Ho]. destruct (table_entry _ _ _ _ _ _ _ _ HI Ho) as (V & Oi & Ok & _).
  assert (g_p0 o = e) as Hoe by (injection Oi; congruence).
  exists o. rewrite Oi. split_and!; auto; [by apply obj_kind_obj in Ok|].
  apply (done_at u c y (d_report c o) any Hu Hy). eapply (pd_duties _ _ _ _ _ _ Hnode); [|by eapply (oi_tbl _ _ _ _ _ HI)]. apply due_report. by split.
Qed.
End rest.
End net.

Lemma overlap_convicts {P : prims} (cfgs : gmap string (gconf P)) : connected cfgs -> forall p sec st a b l u v,
  equivocation cfgs a b -> (forall w g, OHand w g ∈ l -> harmless cfgs a g) -> one_version a l ->
  OHand u a ∈ l -> OHand v b ∈ l -> is_Some (cfgs !! u) -> is_Some (cfgs !! v) ->
  let N := onet_run cfgs (onet_init cfgs p sec st) l in oquiescent N ->
  forall w c, cfgs !! w = Some c -> exists (y : gpool) con, on_nodes N !! w = Some y /\ g_p0 a ∈ t_black (p_st y) /\
    t_con_init (p_st y) !! get_id con = Some con /\ g_type con = CON_INIT /\ g_p0 con = g_p0 a /\ verify (gc_crypto c) con = Accept /\
    ToMonitor (gc_owner c) con ∈ t_trace (p_st y).
Proof.
  intros HN p sec st a b l u v [Ha Hi [Hs Hne] Hd Hv] Hl Hone Hua Hvb [cu Hu] [cv Hcv] N Hq w c Hw.
  set (hands := l ≫= hand_of).
  assert (forall u g, (u, g) ∈ hands <-> OHand u g ∈ l) as Hh.
  { intros u' g'. unfold hands. rewrite elem_of_list_bind. split.
    - intros (ev & Hev & Hin). destruct ev; cbn in Hev; try (by apply elem_of_nil in Hev). by apply elem_of_list_singleton in Hev as [= -> ->].
    - intros Hin. eexists. split; [|exact Hin]. by left. }
  assert (forall u g, (u, g) ∈ hands -> harmless cfgs a g) as Hharm by (intros u' g' H'; apply Hh in H'; by eapply Hl).
  assert (forall u g h, (u, g) ∈ hands -> (u, h) ∈ hands -> get_id g = get_id a -> get_id h = get_id a -> (g_s0 g, g_s1 g) = (g_s0 h, g_s1 h)) as Hone'.
  { intros u' g' h' G1 G2. apply Hh in G1, G2. by apply (Hone u'). }
  destruct (L_init cfgs a p sec st hands) as [I1 I2].
  destruct (L_run cfgs HN a Ha Hne p sec st hands Hharm Hone' l [] _ I1 I2) as (hd & H1 & H2 & _ & H3); [intros u' g'; apply Hh|].
  fold N in H1, H2.
  assert (forall w, is_Some (cfgs !! w) -> is_Some (on_nodes N !! w)) as Hdom by (intros w' H'; by apply (l1_dom _ _ _ _ H1)).
  destruct (Hdom u ltac:(by eexists)) as [yu Hyu]. destruct (Hdom v ltac:(by eexists)) as [yv Hyv]. destruct (Hdom w ltac:(by eexists)) as [y Hy].
  pose proof (done_at cfgs a N Hq u cu yu _ _ Hu Hyu (l1_hand _ _ _ _ H1 u a cu yu (H3 u a Hua) Hu Hyu eq_refl (proj1 (Hv u cu Hu)))) as Du.
  pose proof (done_at cfgs a N Hq v cv yv _ _ Hcv Hyv (l1_hand _ _ _ _ H1 v b cv yv (H3 v b Hvb) Hcv Hyv (eq_sym Hi) (proj2 (Hv v cv Hcv)))) as Dv.
  assert (det a (p_st y)) as Hdet.
  { destruct Du as [Du|(a' & A1 & A2 & A3 & A4)]; [by eapply (det_spreads cfgs HN a Ha Hne p sec st hands Hharm Hone' N hd H1 H2 Hq u)|].
    destruct Dv as [Dv|(b' & B1 & B2 & B3 & B4)]; [by eapply (det_spreads cfgs HN a Ha Hne p sec st hands Hharm Hone' N hd H1 H2 Hq v)|].
    destruct (conflict cfgs HN a Ha Hne p sec st hands Hharm Hone' N hd H1 H2 Hq u cu yu a' v cv yv b') as (w' & k & x & X1 & X2 & X3); auto.
    { unfold differ. intros E. apply Hd. congruence. }
    exact (det_spreads cfgs HN a Ha Hne p sec st hands Hharm Hone' N hd H1 H2 Hq w' k x w c y X1 X2 X3 Hw Hy). }
  destruct (blacklisted cfgs a N hd H1 Hq w c y Hw Hy Hdet) as (con & C1 & C2 & C3 & C4 & C5).
  exists y, con. split_and!; auto. by eapply (det_black cfgs HN a Ha Hne p sec st hands Hharm Hone' N hd H1 H2 Hq w).
Qed.

Lemma overlap_detected {P : prims} (cfgs : gmap string (gconf P)) : connected cfgs -> forall p sec st a b l u v,
  equivocation cfgs a b -> (forall w g, OHand w g ∈ l -> harmless cfgs a g) -> one_version a l ->
  OHand u a ∈ l -> OHand v b ∈ l -> is_Some (cfgs !! u) -> is_Some (cfgs !! v) ->
  let N := onet_run cfgs (onet_init cfgs p sec st) l in oquiescent N ->
  forall w c, cfgs !! w = Some c -> exists (y : gpool) con, on_nodes N !! w = Some y /\ g_p0 a ∈ t_black (p_st y) /\
    t_con_init (p_st y) !! get_id con = Some con /\ g_type con = CON_INIT /\ g_p0 con = g_p0 a /\ verify (gc_crypto c) con = Accept.
Proof.
  intros HN p sec st a b l u v H1 H2 H3 H4 H5 H6 H7 N Hq w c Hw.
  destruct (overlap_convicts cfgs HN p sec st a b l u v H1 H2 H3 H4 H5 H6 H7 Hq w c Hw) as (y & con & A1 & A2 & A3 & A4 & A5 & A6 & _).
  exists y, con. by split_and!.
Qed.
