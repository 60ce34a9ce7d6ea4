(** One gossiper with overlapping handlers facing versions of a statement. *)
From Verif Require Import Bytes Hex Json Types Crypto Verify Prog Gossiper Network Overlap SpecVerify SpecGossiper SpecNetwork SpecDetect ProgFacts Duty DutyMore GstFacts CodecFacts CryptoFacts VerifyFacts GWalk GossiperInv GossiperSeq GossiperEvidence GossiperStep GossiperSeqInv GossiperConflict DetectNode DetectStep.
From Coq Require Import Lia.
Open Scope string_scope.

Definition differ (g h : gobj) : Prop := (g_s0 g, g_s1 g) <> (g_s0 h, g_s1 h).

Section node.
Context {P : prims} (cfgs : gmap string (gconf P)) (a : gobj) (Ha : statement a) (Hsig : g_signer a <> "").
Context (c : gconf P) (Hin : exists u, cfgs !! u = Some c) (HT : 0 < cc_threshold (gc_crypto c)).
Notation cc := (gc_crypto c).
Notation T := (cc_threshold cc).
Notation e := (g_p0 a).
Notation i := (get_id a).
Notation f := (af a).
Notation harmless := (harmless cfgs a).
Notation DI := (DI cfgs a c).

Definition proves (con : gobj) : Prop := obj_kind con = KObj OCon /\ g_p0 con = e.
(** A proof about the entity has been stored; a version has been. *)
Definition det (s : gst) : Prop := exists con, EvStored con ∈ t_trace s /\ proves con.
Definition verin (s : gst) : Prop := exists g, EvStored g ∈ t_trace s /\ get_id g = i.

Definition OR (s s' : gst) : Prop := GR s s' /\ (e ∈ t_black s -> e ∈ t_black s').
(** [Q]: versions the gossiper may store. *)
Record OI (Q : gobj -> Prop) (s : gst) : Prop := mkOI {
  oi_di : DI s;
  oi_tbl : forall k j o, get_tbl s k !! j = Some o -> EvStored o ∈ t_trace s;
  oi_ev : forall g k, EvStored g ∈ t_trace s -> obj_kind g = KObj k -> is_Some (get_tbl s k !! get_id g);
  oi_harm : forall g, EvStored g ∈ t_trace s -> harmless g;
  oi_q : forall g, EvStored g ∈ t_trace s -> get_id g = i -> Q g;
  oi_black : e ∈ t_black s -> det s;
  oi_pay : forall j o, t_payload s !! j = Some o -> get_id o <> i;
  oi_sent : forall v ep g, ToGossiper v ep (MObj g) ∈ t_trace s -> get_id g = i -> EvStored g ∈ t_trace s
}.
Definition OH (g : gobj) (s : gst) : Prop := harmless g /\ get_id g <> i.

Lemma trace_in s s' x : OR s s' -> x ∈ t_trace s -> x ∈ t_trace s'.
Proof using. intros [[l E] _] Hx. rewrite E. apply elem_of_app. by left. Qed.
Lemma det_stays s s' : OR s s' -> det s -> det s'.
Proof using. intros H (con & H1 & H2). exists con. split; [by eapply trace_in|done]. Qed.
Lemma verin_stays s s' : OR s s' -> verin s -> verin s'.
Proof using. intros H (g & H1 & H2). exists g. split; [by eapply trace_in|done]. Qed.

Local Instance OR_pre : PreOrder OR.
Proof.
  pose proof (w_pre _ _ _ _ _ _ _ (walk_GI c)) as [R1 R2]. split.
  - intros s. by split.
  - intros x y z [A1 A2] [B1 B2]. split; [by eapply R2|auto].
Qed.

Lemma stored_ok Q s g : OI Q s -> EvStored g ∈ t_trace s -> verify cc g = Accept.
Proof using.
  intros HI Hg. destruct (oi_di _ _ HI) as ((_ & _ & _ & Ht & _) & _). apply elem_of_list_split in Hg as (l1 & l2 & E).
  by destruct (Ht _ _ _ E).
Qed.

Lemma table_entry Q s k j o : OI Q s -> get_tbl s k !! j = Some o -> verify cc o = Accept /\ get_id o = j /\ obj_kind o = KObj k /\ harmless o.
Proof using.
  intros HI Ho. destruct (oi_di _ _ HI) as ((H1 & _) & _ & H2 & _). destruct (H1 _ _ _ Ho) as (A1 & A2 & A3). split_and!; auto; [by apply obj_kind_obj|by eapply H2].
Qed.

Lemma OI_frame Q s s' l : OI Q s -> keeps DI GR s s' -> (forall k, get_tbl s' k = get_tbl s k) ->
  (forall j o, t_payload s' !! j = Some o -> get_id o <> i) ->
  (e ∈ t_black s -> e ∈ t_black s') -> (e ∈ t_black s' -> e ∈ t_black s \/ det s) ->
  t_trace s' = (t_trace s ++ l)%list ->
  (forall x, x ∈ l -> match x with EvStored _ => False | ToGossiper _ _ (MObj g) => get_id g = i -> EvStored g ∈ t_trace s | _ => True end) ->
  keeps (OI Q) OR s s'.
Proof using.
  intros HI [K1 K2] E1 E2 E3 E3' E4 Hl.
  assert (OR s s') as HR by (split; auto).
  assert (forall g, EvStored g ∈ t_trace s' -> EvStored g ∈ t_trace s) as Hst.
  { intros g. rewrite E4, elem_of_app. intros [?|Hx]; [done|]. by destruct (Hl _ Hx). }
  split; [|done]. destruct HI. split; auto.
  - intros k j o. rewrite E1. intros Ho. eapply trace_in; eauto.
  - intros g k Hg Hk. rewrite E1. eauto.
  - intros Hb. destruct (E3' Hb) as [Hb'|Hd]; (eapply det_stays; [exact HR|]); auto.
  - intros v ep g. rewrite E4, !elem_of_app. intros [Hg|Hx] Hi; [left; eauto|]. left. apply (Hl _ Hx), Hi.
Qed.

Lemma OI_insert Q s k g : OI Q s -> keeps DI GR s (inserted s k g) -> obj_kind g = KObj k -> (get_id g = i -> Q g) ->
  keeps (OI Q) OR s (inserted s k g) /\ EvStored g ∈ t_trace (inserted s k g).
Proof using.
  intros HI [K1 K2] Hk HQ. set (s' := inserted s k g) in *.
  assert (t_trace s' = (t_trace s ++ [EvStored g])%list) as Et by (unfold s', inserted; by autorewrite with gst).
  assert (t_black s' = t_black s) as Eb by (unfold s', inserted; by autorewrite with gst).
  assert (t_payload s' = t_payload s) as Ep by (unfold s', inserted; by autorewrite with gst).
  assert (forall k', get_tbl s' k' = if decide (k = k') then <[get_id g := g]> (get_tbl s k') else get_tbl s k') as Etb.
  { intros k'. unfold s', inserted. autorewrite with gst. rewrite get_tbl_set_tbl. destruct (decide (k = k')) as [->|]; done. }
  assert (OR s s') as HR by (split; [done|by rewrite Eb]).
  assert (EvStored g ∈ t_trace s') as Hg by (rewrite Et; apply elem_of_app; right; by left).
  assert (harmless g) as Hh.
  { destruct K1 as (_ & _ & H3 & _). apply (H3 k (get_id g)). rewrite Etb, decide_True by done. by rewrite lookup_insert. }
  assert (forall h, EvStored h ∈ t_trace s' -> EvStored h ∈ t_trace s \/ h = g) as Hst.
  { intros h. rewrite Et, elem_of_app, elem_of_list_singleton. intros [?|[= ->]]; auto. }
  split; [|done]. split; [|done]. destruct HI. split; auto.
  - intros k' j o. rewrite Etb. destruct (decide (k = k')) as [->|].
    + rewrite lookup_insert_Some. intros [[_ <-]|[_ Ho]]; [done|]. eapply trace_in; eauto.
    + intros Ho. eapply trace_in; eauto.
  - intros h k' Hst' Hk'. rewrite Etb. destruct (Hst h Hst') as [Hold| ->].
    + destruct (oi_ev0 h k' Hold Hk') as [o Ho]. destruct (decide (k = k')) as [->|]; [|by eexists].
      destruct (decide (get_id g = get_id h)) as [->|]; [rewrite lookup_insert; by eexists|]. rewrite lookup_insert_ne by done. by eexists.
    + assert (k' = k) as -> by congruence. rewrite decide_True by done. rewrite lookup_insert. by eexists.
  - intros h Hst'. destruct (Hst h Hst') as [?| ->]; auto.
  - intros h Hst'. destruct (Hst h Hst') as [?| ->]; auto.
  - rewrite Eb. intros Hb. eapply det_stays; eauto.
  - intros j o. rewrite Ep. apply oi_pay0.
  - intros v ep h. rewrite Et at 1. rewrite elem_of_app, elem_of_list_singleton. intros [Hx|[=]] Hi. eapply trace_in; eauto.
Qed.

Lemma kind_other g : obj_kind g <> KObj (OInit f) -> get_id g <> i.
Proof using Ha. intros H Hi. by apply (same_kind a Ha) in Hi. Qed.

(** Posted objects of the identifier are what was to be sent. *)
Lemma sends_version g v ep o : ToGossiper v ep (MObj o) ∈ sends c g -> get_id o = i -> o = g.
Proof using Ha.
  intros Ho Hi. unfold sends in Ho. apply elem_of_list_fmap in Ho as (w & Ew & _). injection Ew as _ _ Em. unfold outgoing in Em.
  destruct (obj_kind g) as [[[]| |]|[]|] eqn:Ek; cbn in Em; try (by injection Em as ->).
  - destruct (oversized c g); [done|]. by injection Em as ->.
  - destruct (oversized c g); injection Em as ->; [|done]. exfalso. revert Hi. apply kind_other.
    assert (obj_kind (remove_payload g) = obj_kind g) as -> by (by destruct g). by rewrite Ek.
Qed.

Ltac fr s := apply (OI_frame _ s _ []); autorewrite with gst; auto; try (intros; by autorewrite with gst); try (by rewrite app_nil_r); try (by intros ? ?%elem_of_nil).
Ltac same_pay HI := intros ? ?; autorewrite with gst; apply (oi_pay _ _ HI).

Lemma walk_versions Q : walk_ok c (OI Q) OR Etok (λ _, True) OH GD.
Proof using All.
  pose proof (walk_harmless cfgs a Ha c) as W. split.
  - apply OR_pre.
  - intros t s s' H [HR _]. by eapply (w_tok _ _ _ _ _ _ _ W).
  - done.
  - intros g s s' H [HR _]. by eapply (w_D _ _ _ _ _ _ _ W).
  - intros s g k Hk HI [HH HC] Hv Ho Hd. destruct (w_insert _ _ _ _ _ _ _ W s g k) as [A1 A2]; auto; [apply HI|].
    split; [|done]. apply OI_insert; auto. by intros ?.
  - intros s g k HI [HH HC] Hv Ho. destruct (w_full _ _ _ _ _ _ _ W s g k) as [A1 A2]; auto; [apply HI|].
    split; [|done]. apply OI_insert; auto. by intros ?.
  - intros s g HI [HH HC] HD Hv Hk. fr s.
    + apply (w_black _ _ _ _ _ _ _ W s g); auto. apply HI.
    + same_pay HI.
    + set_solver.
    + rewrite elem_of_union, elem_of_singleton. intros [Hp|?]; [right|by left]. symmetry in Hp.
      destruct Hk as [Hk|Hk]; [by exists g|]. pose proof (harmless_plain cfgs a g HH Hp) as Hq. by rewrite Hk in Hq.
  - intros s HI. fr s; [apply (w_conv _ _ _ _ _ _ _ W), HI|same_pay HI].
  - intros s HI. fr s; [apply (w_conv_init _ _ _ _ _ _ _ W), HI|same_pay HI].
  - intros s g HI [HH HC] Hv Hk. fr s; [apply (w_payload _ _ _ _ _ _ _ W); auto; apply HI|].
    intros j o. rewrite lookup_insert_Some. intros [[_ <-]|[_ Hj]]; [done|by eapply (oi_pay _ _ HI)].
  - intros s g k HI [HH HC] Hk. pose proof (w_reads _ _ _ _ _ _ _ W s g k (oi_di _ _ HI) HH Hk) as K.
    apply (OI_frame Q s _ [EvBefore (get_id g) (length (get_object_list s (get_id g) k))]); auto; unfold read_and_store; cbn [fst]; autorewrite with gst.
    + intros k'. autorewrite with gst. destruct (Nat.ltb _ _); by autorewrite with gst.
    + intros j o. autorewrite with gst. destruct (Nat.ltb _ _); autorewrite with gst; apply (oi_pay _ _ HI).
    + destruct (Nat.ltb _ _); by autorewrite with gst.
    + destruct (Nat.ltb _ _); autorewrite with gst; auto.
    + destruct (Nat.ltb _ _); by autorewrite with gst.
    + by intros x ->%elem_of_list_singleton.
  - intros s g k HI [HH HC] HD Hv Ho Hk. destruct (w_send _ _ _ _ _ _ _ W s g k) as [A1 A2]; auto; [apply HI|]. split.
    + apply (OI_frame Q s _ (sends c g)); auto; autorewrite with gst; auto; try (intros; by autorewrite with gst); [same_pay HI|].
      intros x Hx. destruct x as [v ep [o|n]| | | | |g'|]; try done; [|unfold sends in Hx; by apply elem_of_list_fmap in Hx as (? & ? & _)].
      intros Hi. rewrite (sends_version g v ep o Hx Hi) in Hi. by destruct HC.
    + apply (OI_frame Q s _ [ToMonitor (gc_owner c) g]); auto; autorewrite with gst; auto; try (intros; by autorewrite with gst); [same_pay HI|].
      by intros x ->%elem_of_list_singleton.
  - intros s g k HI [HH HC] Hk. apply (OI_frame Q s _ (sends c g)); auto; autorewrite with gst; auto; try (intros; by autorewrite with gst).
    + eapply (w_send_frag _ _ _ _ _ _ _ W); [apply HI|..]; eauto.
    + same_pay HI.
    + intros x Hx. destruct x as [v ep [o|n]| | | | |g'|]; try done; [|unfold sends in Hx; by apply elem_of_list_fmap in Hx as (? & ? & _)].
      intros Hi. rewrite (sends_version g v ep o Hx Hi) in Hi. by destruct HC.
  - intros s g k HI [HH HC] Hk. apply (OI_frame Q s _ [ToMonitor (gc_owner c) g]); auto; autorewrite with gst; auto; try (intros; by autorewrite with gst).
    + eapply (w_send_full _ _ _ _ _ _ _ W); [apply HI|..]; eauto.
    + same_pay HI.
    + by intros x ->%elem_of_list_singleton.
  - intros s g k HI [HH HC] HD Hv Hk Hf. eapply (w_later _ _ _ _ _ _ _ W); eauto. apply HI.
  - intros s0 s g sf Ht I0 Hb HR HI Hs. cbn zeta. pose proof Ht as [_ (f' & Hf & Hk)].
    destruct (w_sign_timer _ _ _ _ _ _ _ W s0 s g sf) as [A1 A2]; auto; [apply I0|apply HR|apply HI|].
    split; [|split; [done|apply kind_other; by rewrite (frag_of_kind c g _ f' Hk)]].
    apply (OI_frame Q s _ [EvSigned g (frag_of c g (sigfrag_string sf))]); auto; autorewrite with gst; auto; try (intros; by autorewrite with gst); [same_pay HI|].
    by intros x ->%elem_of_list_singleton.
  - intros s0 s g sf [HH HC] HD Hv Hk I0 Hb HR HI Hs. cbn zeta.
    destruct (w_sign_acc _ _ _ _ _ _ _ W s0 s g sf) as [A1 A2]; auto; [apply I0|apply HR|apply HI|].
    split; [|split; [done|apply kind_other; by rewrite (frag_of_kind c g _ Acc Hk)]].
    apply (OI_frame Q s _ [EvSigned g (frag_of c g (sigfrag_string sf))]); auto; autorewrite with gst; auto; try (intros; by autorewrite with gst); [same_pay HI|].
    by intros x ->%elem_of_list_singleton.
  - intros s0 s g f' Hf Hk I0 [HH HC] Hm HR HI now. split; [|by apply kind_other; rewrite con_kind].
    eapply (w_mal _ _ _ _ _ _ _ W s0); eauto; [apply I0|apply HR|apply HI].
  - intros s0 s s' g f' l g0 ts Hk I0 [HH HC] HT' HR HI Hl Hag Hh HR' HI' period stamp (s1 & P1 & P2 & P3). cbn zeta.
    destruct (w_fullgen _ _ _ _ _ _ _ W s0 s s' g f' l g0 ts) with (period := period) (stamp := stamp) as [A1 A2]; auto; [apply I0|apply HR|apply HI|apply HR'|apply HI'|exists s1; split_and!; auto; [apply P1|apply P2]|].
    split; [|split; [done|]].
    + apply (OI_frame Q s' _ [EvFull (full_of period stamp l ts g0 (target_type g))]); auto; autorewrite with gst; auto; try (intros; by autorewrite with gst); [same_pay HI'|].
      by intros x ->%elem_of_list_singleton.
    + apply kind_other. unfold obj_kind. cbn [g_type full_of]. by rewrite (target_kind g f' Hk).
  - done.
  - done.
  - done.
Qed.
Notation TT := (λ _ _, True).
Notation safe Q := (safe (OI Q) OR Etok (λ _, True)).
Notation pays Q := (pays (OI Q) (λ _, True) OR).

(** ** Versions *)
Lemma version_facts g : get_id g = i -> harmless g -> obj_kind g = KObj (OInit f) /\ g_p0 g = e /\ g_signer g = g_signer a /\ f <> Acc.
Proof using Ha.
  intros Hi Hg. assert (g_p0 g = e) as Hp by (by injection Hi). split_and!; [by apply same_kind|done|by apply Hg|by apply af_kind].
Qed.

Lemma stored_version (Q : gobj -> Prop) s g : OI Q s -> EvStored g ∈ t_trace s -> get_id g = i ->
  exists o, get_tbl s (OInit f) !! i = Some o /\ EvStored o ∈ t_trace s /\ get_id o = i /\ Q o /\ verify cc o = Accept /\ g_signer o = g_signer a.
Proof using Ha.
  intros HI Hg Hi. pose proof (same_kind a Ha g Hi) as Hk. destruct (oi_ev _ _ HI g _ Hg Hk) as [o Ho]. rewrite Hi in Ho.
  pose proof (oi_tbl _ _ HI _ _ _ Ho) as He. destruct (table_entry _ _ _ _ _ HI Ho) as (A1 & A2 & A3 & A4).
  exists o. split_and!; auto; [by apply (oi_q _ _ HI)|]. by apply version_facts.
Qed.

Lemma malicious_eq s g : get_id g = i -> is_malicious s g = bool_decide (g_signer g = g_signer (get_object s i (OInit f))) && negb (same_sig g (get_object s i (OInit f))).
Proof using Ha. intros Hi. unfold is_malicious. rewrite (same_kind a Ha g Hi), Hi. pose proof (proj1 (af_kind a Ha)). destruct f; done. Qed.

Lemma malicious_table (Q : gobj -> Prop) s g : OI Q s -> get_id g = i -> harmless g -> is_malicious s g = true -> exists o, get_tbl s (OInit f) !! i = Some o.
Proof using Ha Hsig.
  intros HI Hi Hg Hm. rewrite malicious_eq in Hm by done. apply andb_true_iff in Hm as [Hm _]. apply bool_decide_eq_true in Hm.
  unfold get_object, obj_at in Hm. destruct (get_tbl s (OInit f) !! i) as [o|]; [by exists o|]. exfalso. apply Hsig.
  destruct (version_facts g Hi Hg) as (_ & _ & <- & _). done.
Qed.

Lemma same_sig_eq o g : same_sig o g = true <-> g_s0 o = g_s0 g /\ g_s1 o = g_s1 g.
Proof using. unfold same_sig. rewrite andb_true_iff, !bool_decide_eq_true. done. Qed.

(** A version that differs from all that may be stored is malicious. *)
Lemma differs_malicious (Q : gobj -> Prop) s g : OI Q s -> get_id g = i -> harmless g -> verin s -> (forall h, Q h -> differ h g) -> is_malicious s g = true.
Proof using Ha.
  intros HI Hi Hg (h & Hh & Hih) HQ. destruct (stored_version Q s h HI Hh Hih) as (o & Ho & _ & _ & Hq & _ & Hso).
  rewrite malicious_eq by done. unfold get_object, obj_at. rewrite Ho. destruct (version_facts g Hi Hg) as (_ & _ & Hsg & _).
  rewrite bool_decide_eq_true_2 by congruence. cbn. destruct (same_sig g o) eqn:E; [|done]. apply same_sig_eq in E as [E1 E2].
  exfalso. apply (HQ o Hq). congruence.
Qed.

Definition rest (g : gobj) : gprog unit :=
  do proceed <- store c g;
  if negb proceed then pskip else send_to_gossipers c g >>> send_to_monitor c g >>> pfork (SignLater g).

Lemma version_steps (Q : gobj -> Prop) rec g (X : gprog unit -> gst -> Prop) s : get_id g = i -> harmless g ->
  (forall A (h : gst -> A) k s, (forall s1, OR s s1 -> OI Q s1 -> X (k (h s1)) s1) -> X (Act (λ s, (s, h s)) k) s) ->
  (forall s1, OR s s1 -> OI Q s1 -> is_duplicate s1 g = true \/ e ∈ t_black s1 -> X pskip s1) ->
  (forall s1 o now, OR s s1 -> OI Q s1 -> get_id o = i -> verify cc o = Accept -> X (rec (generate_con now o g)) s1) ->
  (forall s1, OR s s1 -> OI Q s1 -> is_malicious s1 g = false -> X (rest g) s1) ->
  X (handle_body c rec g) s.
Proof using All.
  intros Hi Hg Hread Hskip Hcon Hrest. destruct (version_facts g Hi Hg) as (Hk & Hp & Hs & Hf).
  unfold handle_body. apply Hread. intros s1 R1 I1. destruct (is_duplicate s1 g) eqn:Ed; [apply Hskip; auto|].
  apply Hread. intros s2 R2 I2. assert (OR s s2) as R02 by (by transitivity s1).
  destruct (in_blacklist s2 (g_p0 g)) eqn:Eb.
  { apply Hskip; auto. right. rewrite <- Hp. by apply bool_decide_eq_true in Eb. }
  assert (X (handle_init c rec f g) s2) as Hh.
  2: { rewrite Hk. destruct f; done. }
  pose proof Hk as Ht. apply obj_kind_obj in Ht. cbn in Ht.
  unfold handle_init. apply Hread. intros s3 R3 I3.
  rewrite (no_full_count c) by (first [apply I3|rewrite Ht; apply init_neq_full]). cbn [Nat.ltb Nat.leb].
  apply Hread. intros s4 R4 I4. rewrite (no_frag_count c) by (first [apply I4|rewrite Ht; apply init_neq_frag]).
  destruct (Nat.leb_spec T 0); [lia|].
  apply Hread. intros s5 R5 I5. assert (OR s s5) as R05 by (transitivity s2; [done|]; transitivity s3; [done|]; by transitivity s4).
  destruct (is_malicious s5 g) eqn:Em; [|by apply Hrest].
  destruct (malicious_table Q s5 g I5 Hi Hg Em) as [o5 Ho5].
  apply Hread. intros s6 R6 I6. apply Hread. intros s7 R7 I7.
  assert (exists o, get_tbl s6 (OInit f) !! i = Some o) as [o Ho].
  { pose proof (oi_tbl _ _ I5 _ _ _ Ho5) as He. destruct (table_entry _ _ _ _ _ I5 Ho5) as (_ & Hid & _).
    destruct (stored_version Q s6 o5 I6) as (o & Ho & _); [by eapply trace_in|done|]. by exists o. }
  destruct (table_entry _ _ _ _ _ I6 Ho) as (A1 & A2 & A3 & A4).
  unfold get_object at 1, obj_at. rewrite Hi, Ho. apply Hcon; auto. transitivity s5; [done|]. by transitivity s6.
Qed.

Lemma keeps_sends (Q : gobj -> Prop) s g : OI Q s -> EvStored g ∈ t_trace s -> get_id g = i -> harmless g ->
  keeps (OI Q) OR s (add_trace s (sends c g)) /\ keeps (OI Q) OR s (add_trace s [ToMonitor (gc_owner c) g]).
Proof using Ha.
  intros HI Hg Hi Hh. destruct (version_facts g Hi Hh) as (Hk & Hp & Hs & Hf). pose proof (walk_harmless cfgs a Ha c) as W.
  destruct (w_send _ _ _ _ _ _ _ W s g (OInit f)) as [A1 A2]; auto; [apply HI|by eapply stored_ok|destruct f; auto; done|]. split.
  - apply (OI_frame Q s _ (sends c g)); auto; autorewrite with gst; auto; try (intros; by autorewrite with gst); [same_pay HI|].
    intros x Hx. destruct x as [v ep [o|n]| | | | |g'|]; try done; [|unfold sends in Hx; by apply elem_of_list_fmap in Hx as (? & ? & _)].
    intros Hi'. by rewrite (sends_version g v ep o Hx Hi').
  - apply (OI_frame Q s _ [ToMonitor (gc_owner c) g]); auto; autorewrite with gst; auto; try (intros; by autorewrite with gst); [same_pay HI|].
    by intros x ->%elem_of_list_singleton.
Qed.

Lemma keeps_insert (Q : gobj -> Prop) s g : OI Q s -> get_id g = i -> harmless g -> verify cc g = Accept -> is_duplicate s g = false -> Q g ->
  keeps (OI Q) OR s (inserted s (OInit f) g) /\ EvStored g ∈ t_trace (inserted s (OInit f) g).
Proof using Ha.
  intros HI Hi Hh Hv Hd HQ. destruct (version_facts g Hi Hh) as (Hk & Hp & Hs & Hf). pose proof (walk_harmless cfgs a Ha c) as W.
  destruct (w_insert _ _ _ _ _ _ _ W s g (OInit f)) as [A1 A2]; auto; [eauto|apply HI|]. by apply OI_insert.
Qed.

Lemma safe_rest (Q : gobj -> Prop) g s : get_id g = i -> harmless g -> Q g -> safe Q TT (rest g) s.
Proof using All.
  intros Hi Hh HQ. destruct (version_facts g Hi Hh) as (Hk & Hp & Hs & Hf). pose proof (walk_versions Q) as W.
  unfold rest. apply (safe_bind (OI Q) OR Etok (λ _, True)). unfold store. destruct (verify cc g) eqn:Hv; [|done|done]. rewrite Hk.
  apply (safe_bind (OI Q) OR Etok (λ _, True)). apply s_atomic. intros s1 R1 I1. unfold insert_unless_dup. destruct (is_duplicate s1 g) eqn:Ed; cbn [fst snd negb].
  { split; [split; [done|reflexivity]|done]. }
  fold (inserted s1 (OInit f) g). destruct (keeps_insert Q s1 g I1 Hi Hh Hv Ed HQ) as [K1 E1]. split; [done|].
  apply (safe_bind (OI Q) OR Etok (λ _, True)). eapply s_note_init_convergence; [exact W|]. intros s2 R2. cbn [negb safe ProgFacts.safe].
  assert (forall s', OR s2 s' -> EvStored g ∈ t_trace s') as He by (intros s' R'; eapply trace_in; [|exact E1]; by transitivity s2).
  apply (safe_bind (OI Q) OR Etok (λ _, True)) with (p := send_to_gossipers c g). apply s_modify. intros s3 R3 I3.
  fold (sends c g). destruct (keeps_sends Q s3 g I3) as [K3 _]; auto. split; [done|].
  apply (safe_bind (OI Q) OR Etok (λ _, True)). apply s_modify. intros s4 R4 I4.
  assert (EvStored g ∈ t_trace s4) as He4 by (apply He; transitivity s3; [exact R3|]; transitivity (add_trace s3 (sends c g)); [apply K3|exact R4]).
  destruct (keeps_sends Q s4 g I4) as [_ K4]; auto. split; [done|]. split; [|done].
  eapply (w_tok _ _ _ _ _ _ _ W); [|apply K4]. eapply (w_later _ _ _ _ _ _ _ (walk_harmless cfgs a Ha c)); eauto. apply I4.
Qed.

Lemma safe_con (Q : gobj -> Prop) n now o g s : safe Q TT (handle_n c (S n) (generate_con now o g)) s.
Proof using All.
  eapply s_handle_n; [apply walk_versions| |].
  { unfold rank. rewrite con_kind. lia. }
  split; [apply harmless_other; [done|..]; by rewrite ?con_kind|by apply kind_other; rewrite con_kind].
Qed.

Lemma safe_version (Q : gobj -> Prop) n g s : get_id g = i -> harmless g -> (Q g \/ (verin s /\ forall h, Q h -> differ h g)) ->
  safe Q TT (handle_n c (S (S n)) g) s.
Proof using All.
  intros Hi Hh HQ. pose proof (walk_versions Q) as W. change (handle_n c (S (S n)) g) with (handle_body c (handle_n c (S n)) g).
  apply (version_steps Q _ g (λ p s, safe Q TT p s)); auto.
  - intros A h k s' Hk s1 R1 I1. cbn. split_and!; auto. reflexivity.
  - done.
  - intros s1 o now R1 I1 _ _. apply safe_con.
  - intros s1 R1 I1 Hm. destruct HQ as [HQ|[Hin' HQ]]; [by apply safe_rest|]. exfalso.
    rewrite (differs_malicious Q s1 g) in Hm; auto; [done|]. by eapply verin_stays.
Qed.

(** ** Requests *)
Lemma version_request g : get_id g = i -> harmless g -> object_handler c (Z.of_nat (len (gobj_marshal g))) g = handle c g.
Proof using Ha Hin.
  intros Hi Hh. destruct (version_facts g Hi Hh) as (Hk & Hp & Hs & Hf). unfold object_handler.
  rewrite Hk, (bool_decide_eq_false_2 (KObj (OInit f) = KFrag Rev)) by done. rewrite andb_false_r.
  destruct (bool_decide_reflect (KObj (OInit f) = KObj (OInit Rev))) as [E|_]; [|by rewrite andb_false_r].
  assert (Z.ltb (gc_opt_threshold c) (Z.of_nat (len (gobj_marshal g))) = false) as ->; [|done]. apply Z.ltb_ge. destruct Hin as [u Hu].
  destruct (Hh Hp) as [_ H2]. eapply (proj2 (H2 Hi)); [|exact Hu]. rewrite E in Hk. by apply obj_kind_obj in Hk.
Qed.
Lemma con_request n g : obj_kind g = KObj OCon -> object_handler c n g = handle c g.
Proof using. intros Hk. unfold object_handler. rewrite Hk. rewrite (bool_decide_eq_false_2 (KObj OCon = KFrag Rev)), (bool_decide_eq_false_2 (KObj OCon = KObj (OInit Rev))) by done. by rewrite !andb_false_r. Qed.

Lemma safe_object (Q : gobj -> Prop) g s : harmless g -> (get_id g = i -> Q g \/ (verin s /\ forall h, Q h -> differ h g)) ->
  safe Q TT (object_handler c (Z.of_nat (len (gobj_marshal g))) g) s.
Proof using All.
  intros Hh HQ. destruct (decide (get_id g = i)) as [Hi|Hi].
  - rewrite version_request by done. apply safe_version; auto.
  - eapply s_object; [apply walk_versions|done|]. intros s1 I1 _ Hk. pose proof (reconstructed s1 g Hk) as Hk'.
    split; [apply harmless_other; auto; by rewrite Hk'|apply kind_other; by rewrite Hk'].
Qed.

Lemma safe_notification (Q : gobj -> Prop) n s : safe Q TT (notification_handler c n) s.
Proof using All.
  apply s_note; [|apply OR_pre]. intros s1 url n' HI.
  apply (OI_frame Q s1 _ [ToGossiper url "/gossip/new_payload_request" (MNote n')]); auto; autorewrite with gst; auto; try (intros; by autorewrite with gst).
  - apply note_DI, HI.
  - same_pay HI.
  - by intros x ->%elem_of_list_singleton.
Qed.

Lemma safe_request (Q : gobj -> Prop) n s : safe Q TT (request_handler n) s.
Proof using All.
  eapply s_request; [apply walk_versions|]. intros s0 s1 j o url I0 Ho HR HI.
  apply (OI_frame Q s1 _ [ToGossiper url "/gossip/rev_init" (MObj o)]); auto; autorewrite with gst; auto; try (intros; by autorewrite with gst).
  - apply (reply_DI cfgs a c s0 s1 j o url); auto; [apply I0|apply HR|apply HI].
  - same_pay HI.
  - intros x ->%elem_of_list_singleton. intros Hi. by apply (oi_pay _ _ I0) in Ho.
Qed.

(** ** Duties *)
Definition d_send (g : gobj) (v : string) : duty gst gtask :=
  mkduty (λ s, EvStored g ∈ t_trace s) (λ s, ToGossiper v (outgoing c g).1 (outgoing c g).2 ∈ t_trace s) (λ _, False).
Definition d_black (g : gobj) : duty gst gtask := mkduty (λ s, EvStored g ∈ t_trace s) (λ s, e ∈ t_black s) (λ _, False).
Definition d_report (g : gobj) : duty gst gtask := mkduty (λ s, EvStored g ∈ t_trace s) (λ s, ToMonitor (gc_owner c) g ∈ t_trace s) (λ _, False).
Definition d_det : duty gst gtask := mkduty (λ _, True) det (λ _, False).
Definition d_ver (g : gobj) : duty gst gtask :=
  mkduty (λ _, True) (λ s, det s \/ exists g', EvStored g' ∈ t_trace s /\ get_id g' = i /\ g_s0 g' = g_s0 g /\ g_s1 g' = g_s1 g) (λ _, False).

Definition sent_kind (k : kind) : Prop := k = KObj OCon \/ k = KObj (OInit Sth) \/ k = KObj (OInit Rev).
Inductive due : duty gst gtask -> Prop :=
| due_send g v : sent_kind (obj_kind g) -> v ∈ gc_neighbours c -> due (d_send g v)
| due_black g : proves g -> due (d_black g)
| due_report g : proves g -> due (d_report g).

Lemma due_lasting d : due d -> lasting OR d.
Proof using. intros [g v Hk Hv|g Hg|g Hg] s s' HR; cbn; [by apply trace_in|apply HR|by apply trace_in]. Qed.
Lemma due_tasks d t : due d -> ~ du_task d t.
Proof using. intros [g v Hk Hv|g Hg|g Hg] []. Qed.
Lemma det_lasting : lasting OR d_det.
Proof using. intros s s' HR. by apply det_stays. Qed.
Lemma ver_lasting g : lasting OR (d_ver g).
Proof using. intros s s' HR [H|(h & H1 & H2)]; [left; by eapply det_stays|right]. exists h. split; [by eapply trace_in|done]. Qed.

Lemma stored_con (Q : gobj -> Prop) s g o : OI Q s -> proves g -> get_tbl s OCon !! get_id g = Some o -> det s.
Proof using.
  intros HI [Hk Hp] Ho. pose proof (oi_tbl _ _ HI _ _ _ Ho) as He. destruct (table_entry _ _ _ _ _ HI Ho) as (A1 & A2 & A3 & A4).
  exists o. split; [done|]. split; [done|]. injection A2 as _ _ A2. congruence.
Qed.

Lemma pays_con (Q : gobj -> Prop) n g s : proves g -> verify cc g = Accept -> pays Q d_det (handle_n c (S n) g) s.
Proof using.
  intros Hg Hv. pose proof Hg as [Hk Hp]. cbn [handle_n]. unfold handle_body.
  assert (forall s1, OI Q s1 -> is_duplicate s1 g = true -> det s1) as Hdup.
  { intros s1 I1 Hd. unfold is_duplicate in Hd. rewrite Hk in Hd. destruct (get_tbl s1 OCon !! get_id g) as [o|] eqn:Eo; [|done]. by eapply stored_con. }
  apply pays_read. intros s1 R1 I1 _. destruct (is_duplicate s1 g) eqn:Ed; [apply pays_done; by apply Hdup|].
  apply pays_read. intros s2 R2 I2 _. destruct (in_blacklist s2 (g_p0 g)) eqn:Eb.
  { apply pays_done. apply (oi_black _ _ I2). rewrite <- Hp. by apply bool_decide_eq_true in Eb. }
  rewrite Hk. unfold handle_con. apply pays_read. intros s3 R3 I3 _. unfold obj_count.
  destruct (get_tbl s3 OCon !! get_id g) as [o|] eqn:Eo; cbn [Nat.eqb]; [apply pays_done; by eapply stored_con|].
  unfold store. rewrite Hv, Hk. cbn [pbind patomic]. right. intros s4 R4 I4 _ I4' _ _. apply pays_done.
  unfold insert_unless_dup in *. destruct (is_duplicate s4 g) eqn:Ed4; cbn [fst snd] in *; [by apply Hdup|].
  exists g. split; [|done]. autorewrite with gst. apply elem_of_app. right. by left.
Qed.

Lemma con_proves now o g : get_id o = i -> proves (generate_con now o g).
Proof using. intros Hi. split; [apply con_kind|]. cbn. by injection Hi. Qed.

Lemma con_checks (Q : gobj -> Prop) n now o g s : get_id o = i -> verify cc o = Accept -> get_id g = i -> verify cc g = Accept ->
  pays Q d_det (handle_n c (S n) (generate_con now o g)) s.
Proof using Ha.
  intros Ho Hvo Hi Hv. apply pays_con; [by apply con_proves|]. apply con_accepted with (f := f); auto; by apply same_kind.
Qed.

Lemma pays_ver (Q : gobj -> Prop) n g s : get_id g = i -> harmless g -> verify cc g = Accept -> pays Q (d_ver g) (handle_n c (S (S n)) g) s.
Proof using All.
  intros Hi Hh Hv. destruct (version_facts g Hi Hh) as (Hk & Hp & Hs & Hf). change (handle_n c (S (S n)) g) with (handle_body c (handle_n c (S n)) g).
  assert (forall s1, OI Q s1 -> is_duplicate s1 g = true -> du_done (d_ver g) s1) as Hdup.
  { intros s1 I1 Hd. unfold is_duplicate in Hd. rewrite Hk, Hi in Hd. destruct (get_tbl s1 (OInit f) !! i) as [o|] eqn:Eo; [|done].
    pose proof (oi_tbl _ _ I1 _ _ _ Eo) as He. destruct (table_entry _ _ _ _ _ I1 Eo) as (A1 & A2 & A3 & A4). apply same_sig_eq in Hd as [Hd1 Hd2].
    right. by exists o. }
  apply (version_steps Q _ g (λ p s, pays Q (d_ver g) p s)); auto.
  - intros A h k s' Hk'. apply pays_read. intros s1 R1 I1 _. by apply Hk'.
  - intros s1 R1 I1 [Hd|Hb]; [left; by apply Hdup|]. left. left. by apply (oi_black _ _ I1).
  - intros s1 o now R1 I1 Ho Hvo. eapply pays_weaken; [| |by apply con_checks]; [by left|done].
  - intros s1 R1 I1 Hm. unfold rest, store. rewrite Hv, Hk. cbn [pbind patomic]. right. intros s4 R4 I4 _ I4' _ _. apply pays_done.
    unfold insert_unless_dup in *. destruct (is_duplicate s4 g) eqn:Ed4; cbn [fst snd] in *; [by apply Hdup|].
    right. exists g. split; [|done]. autorewrite with gst. apply elem_of_app. right. by left.
Qed.

Lemma pays_diff (Q : gobj -> Prop) n g s : get_id g = i -> harmless g -> verify cc g = Accept -> verin s -> (forall h, Q h -> differ h g) ->
  pays Q d_det (handle_n c (S (S n)) g) s.
Proof using All.
  intros Hi Hh Hv Hin' HQ. destruct (version_facts g Hi Hh) as (Hk & Hp & Hs & Hf). change (handle_n c (S (S n)) g) with (handle_body c (handle_n c (S n)) g).
  apply (version_steps Q _ g (λ p s, pays Q d_det p s)); auto.
  - intros A h k s' Hk'. apply pays_read. intros s1 R1 I1 _. by apply Hk'.
  - intros s1 R1 I1 [Hd|Hb]; [|left; by apply (oi_black _ _ I1)]. exfalso. unfold is_duplicate in Hd. rewrite Hk, Hi in Hd.
    destruct (get_tbl s1 (OInit f) !! i) as [o|] eqn:Eo; [|done]. pose proof (oi_tbl _ _ I1 _ _ _ Eo) as He. destruct (table_entry _ _ _ _ _ I1 Eo) as (A1 & A2 & A3 & A4).
    apply same_sig_eq in Hd as [Hd1 Hd2]. apply (HQ o); [by apply (oi_q _ _ I1)|congruence].
  - intros s1 o now R1 I1 Ho Hvo. by apply con_checks.
  - intros s1 R1 I1 Hm. exfalso. rewrite (differs_malicious Q s1 g) in Hm; auto; [done|]. by eapply verin_stays.
Qed.

(** ** What is stored is sent *)
Notation calm := (calm (Task:=gtask) due).
Notation dutiful Q := (dutiful (OI Q) OR due).

Lemma calm_mod {A} (h : gst -> gst) (k : unit -> gprog A) : (forall s g, EvStored g ∈ t_trace (h s) -> EvStored g ∈ t_trace s \/ (~ sent_kind (obj_kind g))) ->
  (forall x, calm (k x)) -> calm (Act (λ s, (h s, tt)) k).
Proof using.
  intros Hh Hk. split; [|done]. intros s d [g v Hg Hv|g Hg|g Hg]; cbn; intros Hx; (destruct (Hh s g Hx) as [?|Hn]; [done|]); exfalso; apply Hn; [done|left; apply Hg..].
Qed.
Lemma calm_trace {A} l (k : unit -> gprog A) : (forall x, x ∈ l -> match x with EvStored _ => False | _ => True end) ->
  (forall x, calm (k x)) -> calm (Act (λ s, (add_trace s l, tt)) k).
Proof using. intros Hl. apply calm_mod. intros s g. autorewrite with gst. rewrite elem_of_app. intros [?|Hx]; [by left|]. by apply Hl in Hx. Qed.

Ltac same := intros ? ?; autorewrite with gst; by left.

Lemma calm_black x : calm (add_blacklist x).
Proof using. apply calm_read. intros []; cbn [negb pwhen]; [done|]. apply calm_mod; [same|done]. Qed.
Lemma calm_conv : calm (note_init_convergence c).
Proof using. apply calm_read. intros []; cbn [negb pwhen]; [|done]. apply calm_mod; [same|done]. Qed.

Lemma calm_store g : ~ sent_kind (obj_kind g) -> calm (store c g).
Proof using.
  intros Hk. unfold store. destruct (verify cc g); [|done|done].
  assert (forall k, forall s (d : duty gst gtask), due d -> du_when d (insert_unless_dup k g s).1 -> du_when d s) as Hins.
  { intros k s d Hd. unfold insert_unless_dup. destruct (is_duplicate s g); [done|]. cbn [fst].
    destruct Hd as [h v Hh Hv|h Hh|h Hh]; cbn; autorewrite with gst; rewrite elem_of_app, elem_of_list_singleton; (intros [?|[= ->]]; [done|]); exfalso; apply Hk; [done|left; apply Hh..]. }
  assert (forall (h : gst -> gst), (forall s, t_trace (h s) = (t_trace s ++ [EvStored g])%list) -> forall s g', EvStored g' ∈ t_trace (h s) -> EvStored g' ∈ t_trace s \/ (~ sent_kind (obj_kind g'))) as Hadd.
  { intros h Eh s g'. rewrite Eh, elem_of_app, elem_of_list_singleton. intros [?|[= ->]]; auto. }
  destruct (obj_kind g) as [[f'| |f']|f'|].
  - split; [by apply Hins|]. intros []; cbn [negb]; [|done]. apply (calm_bind due (note_init_convergence c) (λ _, Ret true)); [apply calm_conv|done].
  - exfalso. apply Hk. by left.
  - apply calm_mod; [apply Hadd; intros; by autorewrite with gst|]. intros _. apply calm_bind; [|done]. destruct (bool_decide _); cbn [pwhen]; [apply calm_black|done].
  - apply calm_mod; [apply Hadd; intros; by autorewrite with gst|done].
  - done.
Qed.

(** A program that does not panic gets to its continuation. *)
Fixpoint sound {A} (Z : A -> Prop) (p : gprog A) : Prop := match p with Ret x => Z x | Crash _ => False | Act _ k => forall x, sound Z (k x) | Fork _ k => sound Z k end.
Lemma sound_bind {A B} (Z : A -> Prop) (Z' : B -> Prop) (p : gprog A) (q : A -> gprog B) : sound Z p -> (forall x, Z x -> sound Z' (q x)) -> sound Z' (pbind p q).
Proof using. intros Hp Hq. induction p as [x|w|X h k IH|t k IH]; cbn in *; auto; done. Qed.
Lemma pays_next {A B} (Q : gobj -> Prop) d (Z : A -> Prop) (p : gprog A) (q : A -> gprog B) s : sound Z p -> (forall x s, Z x -> pays Q d (q x) s) -> pays Q d (pbind p q) s.
Proof using.
  intros Hp Hq. revert s. induction p as [x|w|X h k IH|t k IH]; intros s; cbn in *; [by apply Hq|done|..].
  - right. intros. apply IH. apply Hp.
  - right. right. by apply IH.
Qed.

Lemma sends_pays {B} (Q : gobj -> Prop) g v (q : unit -> gprog B) s : v ∈ gc_neighbours c -> pays Q (d_send g v) (pbind (send_to_gossipers c g) q) s.
Proof using.
  intros Hv. right. intros s1 _ _ _ _ _ _. apply pays_done. cbn. autorewrite with gst. apply elem_of_app. right. apply elem_of_list_fmap. by exists v.
Qed.

Lemma sound_black x : sound (λ _, True) (add_blacklist x). Proof using. intros []; done. Qed.
Lemma sound_conv : sound (λ _, True) (note_init_convergence c). Proof using. intros []; done. Qed.

Lemma inserted_due k g s d : due d -> du_when d (inserted s k g) -> du_when d s \/ (exists v, v ∈ gc_neighbours c /\ d = d_send g v) \/ (proves g /\ (d = d_black g \/ d = d_report g)).
Proof using.
  intros [h v Hh Hv|h Hh|h Hh]; cbn; unfold inserted; autorewrite with gst; rewrite elem_of_app, elem_of_list_singleton; intros [?|[= ->]]; eauto 6.
Qed.

Lemma black_pays {B} (Q : gobj -> Prop) g (q : unit -> gprog B) s : g_p0 g = e -> pays Q (d_black g) (pbind (add_blacklist (g_p0 g)) q) s.
Proof using.
  intros Hp. unfold add_blacklist. apply pays_read. intros s1 _ I1 _. destruct (in_blacklist s1 (g_p0 g)) eqn:Eb; cbn [negb pwhen].
  - apply pays_done. cbn. rewrite <- Hp. by apply bool_decide_eq_true in Eb.
  - right. intros s2 _ _ _ _ _ _. apply pays_done. cbn. autorewrite with gst. rewrite Hp. apply elem_of_union_l. by apply elem_of_singleton.
Qed.

Lemma dutiful_store (Q : gobj -> Prop) g (q : gprog unit) : sent_kind (obj_kind g) -> dutiful Q q -> (forall v s, v ∈ gc_neighbours c -> pays Q (d_send g v) q s) ->
  (forall s, proves g -> pays Q (d_report g) q s) ->
  dutiful Q (do proceed <- store c g; if negb proceed then pskip else q).
Proof using.
  intros Hk Hq Hs Hr. unfold store. destruct (verify cc g); [|done|done].
  assert (forall k (h : bool -> gprog unit), dutiful Q (h true) -> dutiful Q (h false) ->
    (forall d s, due d -> (exists v, v ∈ gc_neighbours c /\ d = d_send g v) \/ (proves g /\ (d = d_black g \/ d = d_report g)) -> pays Q d (h true) s) ->
    dutiful Q (Act (insert_unless_dup k g) h)) as Hins.
  { intros k h H1 H2 H3. split; [|by intros []]. intros s I1 I2 HR d Hd. unfold insert_unless_dup in *. destruct (is_duplicate s g); cbn [fst snd] in *; [by left|].
    fold (inserted s k g). intros Hw. destruct (inserted_due k g s d Hd Hw) as [?|?]; [by left|right; by apply H3]. }
  destruct Hk as [Hk|Hk].
  - rewrite Hk. cbn [pbind patomic]. apply Hins; [|done|]; cbn [negb].
    + apply dutiful_bind; [apply calm_bind; [apply calm_black|]; intros _; apply calm_bind; [apply calm_conv|done]|]. by intros [].
    + assert (sound (λ b, b = true) (add_blacklist (g_p0 g) >>> note_init_convergence c >>> Ret true)) as Hsound.
      { eapply sound_bind; [apply sound_black|]. intros _ _. eapply sound_bind; [apply sound_conv|]. done. }
      intros d s Hd [(v & Hv & ->)|[Hg [->| ->]]]; [|apply pays_first, black_pays, Hg|].
      * apply pays_next with (Z := λ b, b = true); [exact Hsound|intros ? s1 ->; by apply Hs].
      * apply pays_next with (Z := λ b, b = true); [exact Hsound|intros ? s1 ->; by apply Hr].
  - assert (exists f', obj_kind g = KObj (OInit f')) as (f' & Hk') by (destruct Hk; eauto). rewrite Hk'. cbn [pbind patomic]. apply Hins; [|done|]; cbn [negb].
    + apply dutiful_bind; [apply calm_bind; [apply calm_conv|done]|]. by intros [].
    + intros d s Hd [(v & Hv & ->)|[[Hg _] _]]; [|congruence].
      apply pays_next with (Z := λ b, b = true); [|intros ? s1 ->; by apply Hs].
      eapply sound_bind; [apply sound_conv|]. done.
Qed.

Lemma sends_calm {A} g (k : unit -> gprog A) : (forall x, calm (k x)) -> calm (pbind (send_to_gossipers c g) k).
Proof using. intros Hk. apply calm_trace; [|done]. intros x Hx. apply elem_of_list_fmap in Hx as (v & -> & _). done. Qed.
Lemma monitor_calm {A} g (k : unit -> gprog A) : (forall x, calm (k x)) -> calm (pbind (send_to_monitor c g) k).
Proof using. intros Hk. apply calm_trace; [|done]. by intros x ->%elem_of_list_singleton. Qed.

Lemma calm_frag g : calm (generate_frag c g).
Proof using. unfold generate_frag. destruct (cc_thr_sign _ _); [|done]. apply calm_trace; [|done]. by intros x ->%elem_of_list_singleton. Qed.
Lemma calm_full l ty : calm (generate_full c l ty).
Proof using. unfold generate_full. destruct (cc_thr_aggregate _ _); [|done]. destruct l; [done|]. by apply calm_read. Qed.

Lemma dutiful_n (Q : gobj -> Prop) n g : dutiful Q (handle_n c n g).
Proof using.
  revert g. induction n as [|n IH]; intros g; [done|]. cbn [handle_n]. unfold handle_body. apply dutiful_read. intros []; [done|].
  apply dutiful_read. intros []; [done|].
  assert (forall f', f' <> Acc -> obj_kind g = KObj (OInit f') -> dutiful Q (handle_init c (handle_n c n) f' g)) as Hinit.
  { intros f' Hf Hk. unfold handle_init. apply dutiful_read. intros n1. destruct (Nat.ltb _ _); [done|]. apply dutiful_read. intros n2. destruct (Nat.leb _ _); [done|].
    apply dutiful_read. intros []; [apply dutiful_read; intros o1; apply dutiful_read; intros now; apply IH|].
    apply dutiful_store; [rewrite Hk; unfold sent_kind; destruct f'; auto; done| | |].
    - apply calm_dutiful, sends_calm. intros _. apply monitor_calm. done.
    - intros v s Hv. by apply sends_pays.
    - intros s [Hg _]. congruence. }
  destruct (obj_kind g) as [[[]| |f']|f'|] eqn:Hk.
  - by apply Hinit.
  - by apply Hinit.
  - unfold handle_acc_init. apply dutiful_read. intros n1. destruct (Nat.ltb _ _); [done|]. apply dutiful_read. intros n2. destruct (Nat.leb _ _); [done|].
    apply dutiful_bind; [apply calm_store; rewrite Hk; by intros [?|[?|?]]|]. intros []; [|done]. cbn [negb]. apply dutiful_read. intros []; [done|].
    apply dutiful_bind; [apply calm_frag|]. intros fr. apply IH.
  - unfold handle_con. apply dutiful_read. intros n1. destruct (Nat.eqb _ _); [|done]. apply dutiful_store; [rewrite Hk; by left| | |].
    + apply calm_dutiful, sends_calm. intros _. apply calm_trace; [|done]. by intros x ->%elem_of_list_singleton.
    + intros v s Hv. by apply sends_pays.
    + intros s _. cbn [send_to_gossipers pmodify pbind]. right. intros s1 _ _ _ _ _ _. right. intros s2 _ _ _ _ _ _. apply pays_done. cbn. autorewrite with gst.
      apply elem_of_app. right. by left.
  - unfold handle_full. apply dutiful_read. intros []; [done|]. apply dutiful_read. intros n1. apply dutiful_bind.
    + destruct (Nat.eqb _ _); [|done]. apply calm_bind; [apply calm_store; rewrite Hk; by intros [?|[?|?]]|]. intros _. apply calm_trace; [|done]. by intros x ->%elem_of_list_singleton.
    + intros _. apply dutiful_read. intros []; [|done]. apply calm_dutiful, calm_mod; [same|done].
  - unfold handle_frag. apply dutiful_read. intros n1. destruct (Nat.ltb _ _); [done|].
    split.
    { intros s _ _ _ d Hd Hw. left. unfold read_and_store in Hw. cbn [fst snd] in Hw.
      destruct Hd as [h v Hh Hv|h Hh|h Hh]; cbn [du_when d_send d_black d_report] in *; autorewrite with gst in Hw; (apply elem_of_app in Hw as [Hw|Hw]; [|by apply elem_of_list_singleton in Hw]);
        (destruct (Nat.ltb (length (get_object_list s (get_id g) f')) T); by autorewrite with gst in Hw). }
    intros before. cbn [pbind]. apply dutiful_seq.
    + match goal with |- context [if ?b then _ else _] => destruct b end; [|done]. apply dutiful_read. intros l. apply dutiful_bind; [apply calm_full|]. intros full.
      apply (dutiful_bind _ _ _ (pmodify (λ s, add_trace s [EvFull full]))); [|intros _; apply IH]. apply calm_trace; [|done]. by intros x ->%elem_of_list_singleton.
    + intros _. match goal with |- context [pwhen ?b _] => destruct b end; cbn [pwhen]; [|done]. apply calm_dutiful. apply calm_trace; [|done]. intros x Hx. apply elem_of_list_fmap in Hx as (v & -> & _). done.
  - done.
Qed.

Lemma dutiful_task (Q : gobj -> Prop) t : dutiful Q (start_task c t).
Proof using. destruct t as [g]. apply dutiful_read. intros []; [done|]. apply dutiful_bind; [apply calm_frag|]. intros fr. apply dutiful_n. Qed.
Lemma dutiful_object (Q : gobj -> Prop) b g : dutiful Q (object_handler c b g).
Proof using.
  unfold object_handler. apply dutiful_bind.
  - destruct (_ && _); cbn; [|done]. unfold save_payload. destruct (verify cc g); [|done|done]. apply calm_mod; [same|done].
  - intros _. destruct (_ && _); [|apply dutiful_n]. apply dutiful_read. intros g'. apply dutiful_n.
Qed.
Lemma dutiful_notification (Q : gobj -> Prop) n : dutiful Q (notification_handler c n).
Proof using. apply dutiful_read. intros []; cbn [negb pwhen]; [done|]. apply calm_dutiful, calm_trace; [|done]. by intros x ->%elem_of_list_singleton. Qed.
Lemma dutiful_request (Q : gobj -> Prop) n : dutiful Q (request_handler n).
Proof using. apply dutiful_read. intros o. destruct (negb _); cbn [pwhen]; [|done]. apply calm_dutiful, calm_trace; [|done]. by intros x ->%elem_of_list_singleton. Qed.
End node.
