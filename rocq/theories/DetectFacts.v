(** Versions of a statement that are handed to different gossipers are
    detected by all of them. *)
From Verif Require Import Bytes Hex Json Types Crypto Verify Prog Gossiper Network SpecVerify SpecGossiper SpecNetwork SpecDetect ProgFacts GstFacts CodecFacts CryptoFacts VerifyFacts WireFacts GWalk GossiperInv GossiperSeq GossiperEvidence GossiperStep GossiperSeqInv GossiperConflict NetworkFacts DetectNode DetectStep.
From Coq Require Import Lia.
Open Scope string_scope.

Section net.
Context {P : prims} (cfgs : gmap string (gconf P)) (HN : connected cfgs).
Context (a : gobj) (Ha : statement a) (Hsig : g_signer a <> "") (p sec st : string).
Notation e := (g_p0 a).
Notation i := (get_id a).
Notation f := (af a).
Notation harmless := (harmless cfgs a).
Notation black y := (e ∈ t_black (s_st y)).
Notation version y := (get_tbl (s_st y) (OInit f) !! i).

Definition harmless_net (ev : nevent) : Prop := match ev with NHand _ g => harmless g | _ => True end.

Definition relevant (g : gobj) : Prop := obj_kind g = KObj OCon \/ obj_kind g = KObj (OInit f).

Record DN (N : net) : Prop := mkDN {
  dn_dom : forall u, is_Some (nt_nodes N !! u) <-> is_Some (cfgs !! u);
  dn_node : forall u c y, cfgs !! u = Some c -> nt_nodes N !! u = Some y -> node_from cfgs a c p sec st y;
  dn_post : forall q, q ∈ nt_flight N -> good_msg cfgs a (po_path q) (po_msg q);
  dn_black : forall u v y z d, u <> v -> nt_nodes N !! u = Some y -> nt_nodes N !! v = Some z -> cfgs !! v = Some d -> black y ->
    black z \/ exists con, proof_ok a d con /\ object_post v con ∈ nt_flight N;
  dn_version : forall u v y z x, u <> v -> nt_nodes N !! u = Some y -> nt_nodes N !! v = Some z -> version y = Some x ->
    seen a x (s_st z) \/ object_post v x ∈ nt_flight N
}.

Lemma proof_agrees u v c d con : cfgs !! u = Some c -> cfgs !! v = Some d -> proof_ok a c con -> proof_ok a d con.
Proof using HN.
  intros Hu Hv (H1 & H2 & H3). split_and!; auto. destruct (cn_keys _ HN u c v d Hu Hv) as [E1 E2].
  rewrite <- H3. unfold verify. rewrite H1. unfold verify_con, cc_verify. by rewrite E1, E2.
Qed.

Lemma seen_stable (c : gconf P) s s' out x : verdict_of a c s s' out -> seen a x s -> seen a x s'.
Proof using.
  intros Hr Hs. destruct Hr as [B1 B2|g' B1 B2 B3 B4|con B1 B2 B3 B4]; unfold seen in *.
  - by rewrite B1, B2.
  - rewrite B3. destruct Hs as [Hs|(y & Hy & _)]; [by left|congruence].
  - by left.
Qed.

Lemma black_stable (c : gconf P) s s' out : verdict_of a c s s' out -> e ∈ t_black s -> e ∈ t_black s'.
Proof using. intros [B1 B2|g' B1 B2 B3 B4|con B1 B2 B3 B4]; [by apply B2|by apply B3|done]. Qed.

Lemma out_harmless (c : gconf P) y ev q : DI cfgs a c (s_st (step c y ev)) -> q ∈ out_of y (step c y ev) -> good_msg cfgs a (po_path q) (po_msg q).
Proof using.
  intros (_ & _ & _ & H & _) Hq. unfold out_of, posts in Hq. apply elem_of_list_omap in Hq as (x & Hx & Eq).
  destruct x as [url ep m| | | | | |]; try done. injection Eq as <-. cbn. apply (H url ep).
  apply elem_of_list_In in Hx. apply elem_of_list_In. revert Hx. generalize (length (t_trace (s_st y))). generalize (t_trace (s_st (step c y ev))).
  induction l as [|b l IH]; intros n Hx; [by destruct n|]. destruct n; [done|]. right. by eapply IH.
Qed.

(** One event at one gossiper; [F] are the old posts that are still under
    way. *)
Lemma preserve N u c y ev F : DN N -> cfgs !! u = Some c -> nt_nodes N !! u = Some y -> harmless_event cfgs a ev ->
  (forall q, q ∈ F -> q ∈ nt_flight N) ->
  (forall q, q ∈ nt_flight N -> q ∈ F \/ forall v g, relevant g -> q = object_post v g -> v = u /\ exists n, ev = Recv n g) ->
  DN (mknet (<[u := step c y ev]> (nt_nodes N)) (F ++ out_of y (step c y ev))).
Proof using All.
  intros [D1 D2 D3 D4 D5] Hu Hy Hev HF Hq. set (y' := step c y ev).
  pose proof (D2 u c y Hu Hy) as Hn. pose proof (node_step cfgs a c p sec st y ev Hn Hev) as Hn'. fold y' in Hn'.
  destruct (node_facts cfgs a Ha c p sec st y Hn) as (HJ & HC & _).
  destruct (node_facts cfgs a Ha c p sec st y' Hn') as ([HI' _] & HC' & _).
  destruct (step_result cfgs a Ha Hsig c (ex_intro _ u Hu) (cn_threshold _ HN u c Hu) y ev HJ HC Hev) as [Hr Hrecv]. fold y' in Hr, Hrecv.
  assert (forall v z, <[u:=y']> (nt_nodes N) !! v = Some z -> (v = u /\ z = y') \/ (v <> u /\ nt_nodes N !! v = Some z)) as Hl.
  { intros v z. rewrite lookup_insert_Some. intros [[<- <-]|[? ?]]; auto. }
  assert (forall v z, v <> u -> nt_nodes N !! v = Some z -> v ∈ gc_neighbours c) as Hnb.
  { intros v z Hv Hz. apply (cn_neighbours _ HN u c Hu). split; [done|]. apply D1. by eexists. }
  split; cbn [nt_nodes nt_flight].
  - intros v. destruct (decide (v = u)) as [->|Hne].
    + rewrite lookup_insert, Hu. split; by eexists.
    + by rewrite lookup_insert_ne.
  - intros v d z Hd Hz. destruct (Hl v z Hz) as [[-> ->]|[_ Hz']]; [by simplify_eq|by eapply D2].
  - intros q Hin. apply elem_of_app in Hin as [Hin|Hin]; [by apply D3, HF|by eapply out_harmless].
  - intros v w z x d Hne Hz Hx Hd Hb.
    assert (forall z0, nt_nodes N !! v = Some z0 -> black z0 -> black x \/ exists con, proof_ok a d con /\ object_post w con ∈ (F ++ out_of y y')%list) as Hold.
    { intros z0 Hz0 Hb0. destruct (Hl w x Hx) as [[-> ->]|[Hw Hx']].
      - destruct (D4 v u z0 y d Hne Hz0 Hy Hd Hb0) as [Hf|(con & Hc & Hf)]; [left; by eapply black_stable|].
        destruct (Hq _ Hf) as [Hf'|Hf']; [right; exists con; split; [done|]; apply elem_of_app; by left|].
        left. destruct (Hf' u con (or_introl (proj1 Hc)) eq_refl) as [_ [n ->]]. simplify_eq. destruct Hc as (C1 & C2 & C3). by apply (Hrecv C3).
      - destruct (D4 v w z0 x d Hne Hz0 Hx' Hd Hb0) as [Hf|(con & Hc & Hf)]; [by left|].
        destruct (Hq _ Hf) as [Hf'|Hf']; [right; exists con; split; [done|]; apply elem_of_app; by left|].
        exfalso. by destruct (Hf' w con (or_introl (proj1 Hc)) eq_refl). }
    destruct (Hl v z Hz) as [[-> ->]|[_ Hz']]; [|by eapply Hold].
    destruct (decide (black y)) as [Hby|Hby]; [by eapply Hold|].
    destruct Hr as [B1 B2|g' B1 B2 B3 B4|con B1 B2 B3 B4]; [by apply B2 in Hb|by apply B3 in Hb|].
    right. exists con. split; [by eapply (proof_agrees u w c d)|]. apply elem_of_app. right. apply B4.
    destruct (Hl w x Hx) as [[-> _]|[? Hx']]; [done|by eapply Hnb].
  - intros v w z x g Hne Hz Hx Hg.
    assert (forall z0, nt_nodes N !! v = Some z0 -> version z0 = Some g -> seen a g (s_st x) \/ object_post w g ∈ (F ++ out_of y y')%list) as Hold.
    { intros z0 Hz0 Hg0. assert (is_Some (cfgs !! v)) as [d Hd] by (apply D1; by eexists).
      destruct (node_facts cfgs a Ha d p sec st z0 (D2 v d z0 Hd Hz0)) as ([HId _] & _ & _). destruct (proj1 (proj1 HId) _ _ _ Hg0) as (Hv & Hid & _).
      destruct (Hl w x Hx) as [[-> ->]|[Hw Hx']].
      - destruct (D5 v u z0 y g Hne Hz0 Hy Hg0) as [Hf|Hf]; [left; by eapply seen_stable|].
        destruct (Hq _ Hf) as [Hf'|Hf']; [right; apply elem_of_app; by left|].
        left. destruct (Hf' u g (or_intror (same_kind a Ha g Hid)) eq_refl) as [_ [n ->]].
        apply Hrecv; [|done]. rewrite <- Hv. destruct (cn_keys _ HN u c v d Hu Hd) as [E1 E2].
        unfold verify. rewrite (same_kind a Ha g Hid). unfold verify_rsa_payload, cc_verify. by rewrite E1, E2.
      - destruct (D5 v w z0 x g Hne Hz0 Hx' Hg0) as [Hf|Hf]; [by left|].
        destruct (Hq _ Hf) as [Hf'|Hf']; [right; apply elem_of_app; by left|]. exfalso. by destruct (Hf' w g (or_intror (same_kind a Ha g Hid)) eq_refl). }
    destruct (Hl v z Hz) as [[-> ->]|[_ Hz']]; [|by eapply Hold].
    destruct (Hr) as [B1 B2|g' B1 B2 B3 B4|con B1 B2 B3 B4]; [rewrite B1 in Hg; by eapply Hold| |rewrite B1 in Hg; by eapply Hold].
    right. apply elem_of_app. right. rewrite B2 in Hg. injection Hg as <-. apply B4.
    destruct (Hl w x Hx) as [[-> _]|[? Hx']]; [done|by eapply Hnb].
Qed.

Lemma DN_init : DN (net_init cfgs p sec st).
Proof using All.
  assert (forall u (y : gsys), nt_nodes (net_init cfgs p sec st) !! u = Some y -> y = init_gsys p sec st) as Hi.
  { intros u y. cbn. rewrite lookup_fmap. destruct (cfgs !! u); [|done]. by intros [= <-]. }
  split.
  - intros u. cbn. rewrite lookup_fmap. destruct (cfgs !! u); cbn; split; intros [? ?]; try done; by eexists.
  - intros u c y Hu Hy. rewrite (Hi u y Hy). by exists [].
  - intros q Hq. by apply elem_of_nil in Hq.
  - intros u v y z d _ Hy _ _. rewrite (Hi u y Hy). cbn. set_solver.
  - intros u v y z x _ Hy _. rewrite (Hi u y Hy). destruct f; cbn; by rewrite lookup_empty.
Qed.

Lemma object_arrival v g : plain_kind (obj_kind g) -> match obj_kind g with KObj (OFull _) | KUnknown => False | _ => True end ->
  arrival (object_post v g) = Some (Recv (Z.of_nat (len (gobj_marshal g))) g).
Proof using.
  intros H1 H2. unfold object_post. apply arrival_object. apply (bool_decide_unpack _). destruct (obj_kind g) as [[[]| |[]]|[]|]; done.
Qed.

Lemma DN_step N ev : DN N -> harmless_net ev -> DN (net_step cfgs N ev).
Proof using All.
  intros HD Hev. pose proof HD as [D1 D2 D3 D4 D5].
  assert (forall u ev', harmless_event cfgs a ev' -> DN (act cfgs N u ev')) as Hact.
  { intros u ev' He. unfold act. destruct (cfgs !! u) as [c|] eqn:Hu; [|done]. destruct (nt_nodes N !! u) as [y|] eqn:Hy; [|done].
    apply (preserve N u c y ev' (nt_flight N)); auto. }
  destruct ev as [u g|j|u j|u q s t]; cbn [net_step harmless_net] in *; [by apply Hact| |by apply Hact|by apply Hact].
  destruct (nt_flight N !! j) as [q|] eqn:Ej; [|done].
  assert (forall q', q' ∈ nt_flight N -> q' ∈ delete j (nt_flight N) \/ q' = q) as Hdel by (intros; by eapply elem_of_delete_or).
  assert (q ∈ nt_flight N) as Hqin by (by eapply elem_of_list_lookup_2).
  assert (forall v g, relevant g -> q = object_post v g -> arrival q = Some (Recv (Z.of_nat (len (gobj_marshal g))) g)) as Harr.
  { intros v g Hk ->. apply object_arrival; destruct Hk as [Hk|Hk]; rewrite Hk; try done; destruct (af_kind a Ha) as [Hf _]; by destruct f. }
  assert ((forall v g z, relevant g -> q = object_post v g -> nt_nodes N !! v = Some z -> False) -> DN (mknet (nt_nodes N) (delete j (nt_flight N)))) as Hdrop.
  { intros Hno. split; cbn [nt_nodes nt_flight]; auto.
    - intros q' Hq'. by eapply D3, elem_of_delete.
    - intros u v y z d Hne Hy Hz Hd Hb. destruct (D4 u v y z d Hne Hy Hz Hd Hb) as [?|(con & Hc & Hf)]; [by left|].
      destruct (Hdel _ Hf) as [Hf'|Hf']; [right; by exists con|]. exfalso. eapply (Hno v con z); [left; apply Hc|done|done].
    - intros u v y z x Hne Hy Hz Hx. destruct (D5 u v y z x Hne Hy Hz Hx) as [?|Hf]; [by left|].
      destruct (Hdel _ Hf) as [Hf'|Hf']; [by right|]. exfalso. 
      assert (is_Some (cfgs !! u)) as [c Hu] by (apply D1; by eexists).
      destruct (node_facts cfgs a Ha c p sec st y (D2 u c y Hu Hy)) as ([HI _] & _ & _). destruct (proj1 (proj1 HI) _ _ _ Hx) as (_ & Hid & _).
      eapply (Hno v x z); [right; by apply (same_kind a Ha)|done|done]. }
  destruct (arrival q) as [ev'|] eqn:Eq.
  2: { apply Hdrop. intros v g z Hk Hqe _. specialize (Harr v g Hk Hqe). done. }
  unfold act. cbn [nt_nodes nt_flight]. destruct (cfgs !! po_to q) as [c|] eqn:Hu; [destruct (nt_nodes N !! po_to q) as [y|] eqn:Hy|].
  - apply (preserve N (po_to q) c y ev' (delete j (nt_flight N))); auto.
    + destruct ev'; try done; cbn.
      * pose proof (D3 q Hqin) as Hm. unfold arrival in Eq. destruct (bool_decide_reflect (po_path q ∈ object_paths)) as [Hpath|]; [|destruct (String.eqb _ _); [by destruct (note_decode _)|destruct (String.eqb _ _); [by destruct (note_decode _)|done]]].
        destruct (po_msg q) as [g'|nn] eqn:Em.
        -- rewrite gobj_roundtrip in Eq. by injection Eq as _ <-.
        -- done.
      * unfold arrival in Eq. destruct (bool_decide _); [by destruct (gobj_decode _)|]. destruct (String.eqb _ _); [by destruct (note_decode _)|]. destruct (String.eqb _ _); [by destruct (note_decode _)|done].
    + intros q' Hq'. by eapply elem_of_delete.
    + intros q' Hq'. destruct (Hdel q' Hq') as [?| ->]; [by left|right]. intros v g Hk Hqe. split; [by rewrite Hqe|].
      specialize (Harr v g Hk Hqe). injection Harr as ->. by eexists.
  - apply Hdrop. intros v g z _ -> Hz. cbn in Hy. congruence.
  - apply Hdrop. intros v g z _ -> Hz. assert (is_Some (cfgs !! v)) as [? ?] by (apply D1; by eexists). cbn in Hu. congruence.
Qed.

Lemma DN_run N l : DN N -> Forall harmless_net l -> DN (net_run cfgs N l).
Proof using All. intros HD Hl. revert N HD. induction Hl as [|ev l He _ IH]; intros N HD; [done|]. cbn. by apply IH, DN_step. Qed.

(** What a gossiper has seen stays seen. *)
Lemma act_seen N u ev v z g : DN N -> harmless_event cfgs a ev -> nt_nodes N !! v = Some z -> seen a g (s_st z) ->
  exists z', nt_nodes (act cfgs N u ev) !! v = Some z' /\ seen a g (s_st z').
Proof using All.
  intros HD Hev Hz Hs. unfold act. destruct (cfgs !! u) as [c|] eqn:Hu; [|eauto]. destruct (nt_nodes N !! u) as [y|] eqn:Hy; [|eauto].
  cbn [nt_nodes]. destruct (decide (u = v)) as [->|Hn]; [|rewrite lookup_insert_ne by done; eauto].
  rewrite lookup_insert. eexists. split; [done|]. simplify_eq.
  destruct (node_facts cfgs a Ha c p sec st z (dn_node _ HD v c z Hu Hz)) as (HJ & HC & _).
  destruct (step_result cfgs a Ha Hsig c (ex_intro _ v Hu) (cn_threshold _ HN v c Hu) z ev HJ HC Hev) as [Hr _].
  by eapply seen_stable.
Qed.

Lemma arrival_harmless N q ev : DN N -> q ∈ nt_flight N -> arrival q = Some ev -> harmless_event cfgs a ev.
Proof using.
  intros HD Hq Eq. pose proof (dn_post _ HD q Hq) as Hm. unfold arrival in Eq.
  destruct (bool_decide_reflect (po_path q ∈ object_paths)) as [Hpath|].
  - destruct (po_msg q) as [g'|nn] eqn:Em; [|done]. rewrite gobj_roundtrip in Eq. injection Eq as <-. done.
  - destruct (String.eqb _ _); [destruct (note_decode _); [|done]; by injection Eq as <-|].
    destruct (String.eqb _ _); [destruct (note_decode _); [|done]; by injection Eq as <-|done].
Qed.

Lemma net_seen N ev v z g : DN N -> harmless_net ev -> nt_nodes N !! v = Some z -> seen a g (s_st z) ->
  exists z', nt_nodes (net_step cfgs N ev) !! v = Some z' /\ seen a g (s_st z').
Proof using All.
  intros HD Hev Hz Hs. destruct ev as [u h|j|u j|u q s t]; cbn [net_step harmless_net] in *; [by eapply act_seen| |by eapply act_seen|by eapply act_seen].
  destruct (nt_flight N !! j) as [q|] eqn:Ej; [|eauto]. destruct (arrival q) as [ev'|] eqn:Eq; [|eauto].
  assert (harmless_event cfgs a ev') as He by (eapply arrival_harmless; [done|by eapply elem_of_list_lookup_2|done]).
  destruct (act_seen N (po_to q) ev' v z g HD He Hz Hs) as (z' & Hz' & Hs'). exists z'. split; [|done].
  revert Hz'. unfold act. cbn [nt_nodes]. destruct (cfgs !! po_to q); [|done]. by destruct (nt_nodes N !! po_to q).
Qed.

Lemma run_seen N l v z g : DN N -> Forall harmless_net l -> nt_nodes N !! v = Some z -> seen a g (s_st z) ->
  exists z', nt_nodes (net_run cfgs N l) !! v = Some z' /\ seen a g (s_st z').
Proof using All.
  intros HD Hl. revert N z HD. induction Hl as [|ev l He _ IH]; intros N z HD Hz Hs; [eauto|]. cbn.
  destruct (net_seen N ev v z g HD He Hz Hs) as (z' & Hz' & Hs'). by eapply (IH (net_step cfgs N ev) z'); [apply DN_step|..].
Qed.

Lemma handed_seen N l u c g : DN N -> Forall harmless_net l -> NHand u g ∈ l -> cfgs !! u = Some c -> get_id g = i -> verify (gc_crypto c) g = Accept ->
  exists y, nt_nodes (net_run cfgs N l) !! u = Some y /\ seen a g (s_st y).
Proof using All.
  intros HD Hl Hin Hu Hi Hv. revert N HD. induction Hl as [|ev l He Hl IH]; intros N HD; [by apply elem_of_nil in Hin|]. cbn.
  pose proof (DN_step N ev HD He) as HD'.
  apply elem_of_cons in Hin as [<-|Hin]; [|by apply IH].
  assert (is_Some (nt_nodes N !! u)) as [y Hy] by (apply (dn_dom _ HD); by eexists).
  destruct (node_facts cfgs a Ha c p sec st y (dn_node _ HD u c y Hu Hy)) as (HJ & HC & _).
  destruct (step_result cfgs a Ha Hsig c (ex_intro _ u Hu) (cn_threshold _ HN u c Hu) y (Recv (Z.of_nat (len (gobj_marshal g))) g) HJ HC He) as [_ Hr].
  destruct (Hr Hv) as [Hr1 _]. specialize (Hr1 Hi). eapply run_seen; [exact HD'|done| |exact Hr1].
  cbn [net_step]. unfold act. rewrite Hu, Hy. cbn [nt_nodes]. by rewrite lookup_insert.
Qed.
End net.

Lemma detected {P : prims} (cfgs : gmap string (gconf P)) : connected cfgs -> forall p sec st a b l u v,
  equivocation cfgs a b -> (forall w g, NHand w g ∈ l -> harmless cfgs a g) ->
  NHand u a ∈ l -> NHand v b ∈ l -> is_Some (cfgs !! u) -> is_Some (cfgs !! v) ->
  let N := net_run cfgs (net_init cfgs p sec st) l in nt_flight N = [] ->
  forall w c, cfgs !! w = Some c -> exists y con, nt_nodes N !! w = Some y /\ g_p0 a ∈ t_black (s_st y) /\
    t_con_init (s_st y) !! get_id con = Some con /\ g_type con = CON_INIT /\ g_p0 con = g_p0 a /\ verify (gc_crypto c) con = Accept.
Proof.
  intros HN p sec st a b l u v [Ha Hi [Hs Hne] Hd Hv] Hl Hua Hvb [cu Hu] [cv Hcv] N Hq w c Hw.
  assert (Forall (harmless_net cfgs a) l) as Hl'.
  { apply Forall_forall. intros [w' g|j|w' j|w' ? ? ?] Hx; try done. by eapply Hl. }
  pose proof (DN_init cfgs HN a Ha Hne p sec st) as H0.
  pose proof (DN_run cfgs HN a Ha Hne p sec st _ l H0 Hl') as HD. fold N in HD.
  destruct (handed_seen cfgs HN a Ha Hne p sec st _ l u cu a H0 Hl' Hua Hu eq_refl (proj1 (Hv u cu Hu))) as (yu & Hyu & Su). fold N in Hyu.
  destruct (handed_seen cfgs HN a Ha Hne p sec st _ l v cv b H0 Hl' Hvb Hcv (eq_sym Hi) (proj2 (Hv v cv Hcv))) as (yv & Hyv & Sv). fold N in Hyv.
  assert (forall w1 w2 y1 y2, nt_nodes N !! w1 = Some y1 -> nt_nodes N !! w2 = Some y2 -> g_p0 a ∈ t_black (s_st y1) -> g_p0 a ∈ t_black (s_st y2)) as Hall.
  { intros w1 w2 y1 y2 H1 H2 Hb. destruct (decide (w1 = w2)) as [->|Hn]; [congruence|].
    assert (is_Some (cfgs !! w2)) as [d Hd2] by (apply (dn_dom _ _ _ _ _ _ HD); by eexists).
    destruct (dn_black _ _ _ _ _ _ HD w1 w2 y1 y2 d Hn H1 H2 Hd2 Hb) as [?|(con & _ & Hf)]; [done|]. rewrite Hq in Hf. by apply elem_of_nil in Hf. }
  assert (is_Some (nt_nodes N !! w)) as [y Hy] by (apply (dn_dom _ _ _ _ _ _ HD); by eexists).
  assert (g_p0 a ∈ t_black (s_st y)) as Hb.
  { destruct Su as [Su|(x & Hx & X1 & X2)]; [by eapply (Hall u w)|]. destruct Sv as [Sv|(z & Hz & Z1 & Z2)]; [by eapply (Hall v w)|].
    destruct (decide (u = v)) as [->|Hn].
    - exfalso. apply Hd. simplify_eq. congruence.
    - destruct (dn_version _ _ _ _ _ _ HD u v yu yv x Hn Hyu Hyv Hx) as [[Hs'|(x' & Hx' & Y1 & Y2)]|Hf].
      + by eapply (Hall v w).
      + exfalso. apply Hd. simplify_eq. congruence.
      + rewrite Hq in Hf. by apply elem_of_nil in Hf. }
  destruct (node_facts cfgs a Ha c p sec st y (dn_node _ _ _ _ _ _ HD w c y Hw Hy)) as ([HI _] & _ & HB).
  destruct (HB _ Hb) as (k & j & o & Hk & Ho & Hp). destruct HI as (G & _ & I3 & _). destruct (proj1 G _ _ _ Ho) as (Ov & Oi & Ot).
  destruct Hk as [-> | ->].
  - exists y, o. rewrite Oi. by split_and!.
  - exfalso. pose proof (harmless_plain cfgs a o (I3 _ _ _ Ho) Hp) as Hpl. apply obj_kind_obj in Ot. by rewrite Ot in Hpl.
Qed.
