(** One gossiper with overlapping handlers facing accusations of an entity. *)
From Verif Require Import Bytes Hex Json Types Crypto Verify Prog Gossiper Network Overlap SpecCodec SpecVerify SpecGossiper SpecNetwork SpecAccuse ProgFacts Duty DutyMore GstFacts CodecFacts CryptoFacts VerifyFacts GWalk GossiperInv GossiperSeq GossiperEvidence GossiperStep GossiperSeqInv GossiperConflict GossiperFrag NetworkNode NetworkFacts DetectNode DetectStep AccuseNode AccuseStep OverlapDetectNode.
From Coq Require Import Lia.
Open Scope string_scope.

Section node.
Context {P : prims} (cfgs : gmap string (gconf P)) (T : nat) (HN : honest_network cfgs T).
Context (Hagg : agg_correct P) (Hperm : fast_perm P) (Hdeser : forall sg : bls_sig P, bls_deser (bls_ser sg) = Some sg).
Context (e p : string) (As : list gobj) (HA : accusations cfgs e p As).
Context (acd : string -> Prop) (stm : gobj -> Prop).
Context (Hstm : forall g, stm g -> g_signer g <> "" /\ forall h, stm h -> get_id h = get_id g -> (g_s0 h, g_s1 h) = (g_s0 g, g_s1 g)).
Context (u : string) (c : gconf P) (Hu : cfgs !! u = Some c).
Notation cc := (gc_crypto c).
Notation frag_ok := (frag_ok cfgs As acd).
Notation fair := (AccuseNode.fair cfgs e As acd stm u).
Notation bucket := (AccuseNode.bucket e p).
Notation signers s := (map g_signer (bucket s)).
Notation DI := (AccuseNode.DI cfgs e As acd stm u c).

Definition convicts (full : gobj) : Prop := obj_kind full = KObj (OFull Acc) /\ g_p0 full = e.
(** An aggregated accusation has been stored. *)
Definition det (s : gst) : Prop := exists full, EvStored full ∈ t_trace s /\ convicts full.
Definition enough (s : gst) : Prop := T <= length (bucket s).

Definition OR (s s' : gst) : Prop := GR s s' /\ (e ∈ t_black s -> e ∈ t_black s') /\ bucket s `prefix_of` bucket s'.
Record OI (s : gst) : Prop := mkOI {
  oi_di : DI s;
  oi_tbl : forall k j o, get_tbl s k !! j = Some o -> EvStored o ∈ t_trace s;
  oi_ev : forall g k, EvStored g ∈ t_trace s -> obj_kind g = KObj k -> is_Some (get_tbl s k !! get_id g);
  oi_black : e ∈ t_black s -> det s;
  oi_det : det s -> enough s
}.
Definition OH (g : gobj) (s : gst) : Prop := fair g /\ (convicts g -> enough s).

Lemma self_u : cc_self cc = u.
Proof using HN Hu. by apply (hn_self _ _ HN u c Hu). Qed.
Lemma thr : cc_threshold cc = T.
Proof using HN Hu. by apply (hn_threshold _ _ HN u). Qed.

Lemma trace_in s s' x : OR s s' -> x ∈ t_trace s -> x ∈ t_trace s'.
Proof using. intros [[l E] _] Hx. rewrite E. apply elem_of_app. by left. Qed.
Lemma det_stays s s' : OR s s' -> det s -> det s'.
Proof using. intros H (con & H1 & H2). exists con. split; [by eapply trace_in|done]. Qed.
Lemma enough_stays s s' : OR s s' -> enough s -> enough s'.
Proof using. intros (_ & _ & H). unfold enough. apply prefix_length in H. lia. Qed.
Lemma signer_stays s s' w : OR s s' -> w ∈ signers s -> w ∈ signers s'.
Proof using. intros (_ & _ & [k E]) H. rewrite E, map_app. apply elem_of_app. by left. Qed.

Local Instance OR_pre : PreOrder OR.
Proof.
  pose proof (w_pre _ _ _ _ _ _ _ (walk_GI c)) as [R1 R2]. split.
  - intros s. by split_and!.
  - intros x y z (A1 & A2 & A3) (B1 & B2 & B3). split_and!; [by eapply R2|auto|by etransitivity].
Qed.

Lemma stored_ok s g : OI s -> EvStored g ∈ t_trace s -> verify cc g = Accept.
Proof using.
  intros HI Hg. destruct (oi_di _ HI) as ((_ & _ & _ & Ht & _) & _). apply elem_of_list_split in Hg as (l1 & l2 & E).
  by destruct (Ht _ _ _ E).
Qed.

Lemma table_entry s k j o : OI s -> get_tbl s k !! j = Some o -> verify cc o = Accept /\ get_id o = j /\ obj_kind o = KObj k.
Proof using.
  intros HI Ho. destruct (oi_di _ HI) as ((H1 & _) & _). destruct (H1 _ _ _ Ho) as (A1 & A2 & A3). split_and!; auto. by apply obj_kind_obj.
Qed.

Lemma bucket_frag s o : OI s -> o ∈ bucket s -> frag_ok o.
Proof using HA.
  intros HI Ho. destruct (oi_di _ HI) as ((_ & _ & H3 & _) & _ & _ & _ & I5). unfold AccuseNode.bucket, get_object_list, frags_at in Ho.
  destruct (get_frags s Acc !! mkgid p ACC_FRAG e) as [l|] eqn:El; [|by apply elem_of_nil in Ho].
  destruct (proj2 (H3 _ _ _ El) o) as [Hi Hk]; [by apply elem_of_list_In|]. pose proof (I5 _ _ _ El Ho) as Hf.
  assert (g_p0 o = e) as Hp by (by injection Hi). specialize (Hf Hp).
  assert (obj_kind o = KFrag Acc) as Ek by (unfold obj_kind; injection Hi as _ -> _; done). by rewrite Ek in Hf.
Qed.

Lemma OI_frame s s' l : OI s -> keeps DI GR s s' -> (forall k, get_tbl s' k = get_tbl s k) -> bucket s `prefix_of` bucket s' ->
  (e ∈ t_black s -> e ∈ t_black s') -> (e ∈ t_black s' -> e ∈ t_black s \/ det s) ->
  t_trace s' = (t_trace s ++ l)%list -> (forall x, x ∈ l -> match x with EvStored _ => False | _ => True end) ->
  keeps OI OR s s'.
Proof using.
  intros HI [K1 K2] E1 E2 E3 E3' E4 Hl.
  assert (OR s s') as HR by (by split_and!).
  assert (forall g, EvStored g ∈ t_trace s' -> EvStored g ∈ t_trace s) as Hst.
  { intros g. rewrite E4, elem_of_app. intros [?|Hx]; [done|]. by destruct (Hl _ Hx). }
  split; [|done]. destruct HI. split; auto.
  - intros k j o. rewrite E1. intros Ho. eapply trace_in; eauto.
  - intros g k Hg Hk. rewrite E1. eauto.
  - intros Hb. destruct (E3' Hb) as [Hb'|Hd]; (eapply det_stays; [exact HR|]); auto.
  - intros (full & F1 & F2). eapply enough_stays; [exact HR|]. apply oi_det0. exists full. auto.
Qed.

Lemma OI_insert s k g : OI s -> keeps DI GR s (inserted s k g) -> obj_kind g = KObj k -> (convicts g -> enough s) ->
  keeps OI OR s (inserted s k g) /\ EvStored g ∈ t_trace (inserted s k g).
Proof using.
  intros HI [K1 K2] Hk HQ. set (s' := inserted s k g) in *.
  assert (t_trace s' = (t_trace s ++ [EvStored g])%list) as Et by (unfold s', inserted; by autorewrite with gst).
  assert (t_black s' = t_black s) as Eb by (unfold s', inserted; by autorewrite with gst).
  assert (bucket s' = bucket s) as Ebk by (unfold AccuseNode.bucket, get_object_list, s', inserted; by autorewrite with gst).
  assert (forall k', get_tbl s' k' = if decide (k = k') then <[get_id g := g]> (get_tbl s k') else get_tbl s k') as Etb.
  { intros k'. unfold s', inserted. autorewrite with gst. rewrite get_tbl_set_tbl. destruct (decide (k = k')) as [->|]; done. }
  assert (OR s s') as HR by (split_and!; [done|by rewrite Eb|by rewrite Ebk]).
  assert (EvStored g ∈ t_trace s') as Hg by (rewrite Et; apply elem_of_app; right; by left).
  assert (forall h, EvStored h ∈ t_trace s' -> EvStored h ∈ t_trace s \/ h = g) as Hst.
  { intros h. rewrite Et, elem_of_app, elem_of_list_singleton. intros [?|[= ->]]; auto. }
  split; [|done]. split; [|done]. destruct HI. split; auto.
  - intros k' j o. rewrite Etb. destruct (decide (k = k')) as [->|].
    + rewrite lookup_insert_Some. intros [[_ <-]|[_ Ho]]; [done|]. eapply trace_in; eauto.
    + intros Ho. eapply trace_in; eauto.
  - intros h k' Hst' Hk'. rewrite Etb. destruct (Hst h Hst') as [Hold| ->].
    + destruct (oi_ev0 h k' Hold Hk') as [o Ho]. destruct (decide (k = k')) as [->|]; [|by eexists].
      destruct (decide (get_id g = get_id h)) as [->|]; [rewrite lookup_insert; by eexists|]. rewrite lookup_insert_ne by done. by eexists.
    + assert (k' = k) as -> by congruence. rewrite decide_True by done. rewrite lookup_insert. by eexists.
  - rewrite Eb. intros Hb. eapply det_stays; eauto.
  - intros (full & F1 & F2). eapply enough_stays; [exact HR|]. destruct (Hst full F1) as [?| ->]; [|auto]. apply oi_det0. by exists full.
Qed.

(** A fragment about the entity is stored in the bucket, others are not. *)
Lemma reads_bucket s g f : obj_kind g = KFrag f -> let s' := (read_and_store c f g s).1 in
  (get_id g = mkgid p ACC_FRAG e /\ f = Acc /\ bucket s' = if Nat.ltb (length (bucket s)) T then (bucket s ++ [g])%list else bucket s) \/
  (get_id g <> mkgid p ACC_FRAG e /\ bucket s' = bucket s).
Proof using HN Hu.
  intros Hk. cbn zeta. unfold read_and_store. cbn [fst]. rewrite thr.
  destruct (decide (get_id g = mkgid p ACC_FRAG e)) as [Hi|Hi].
  - left. assert (f = Acc) as -> by (unfold obj_kind in Hk; injection Hi as _ Ht _; rewrite Ht in Hk; by injection Hk). split_and!; auto.
    rewrite Hi. fold (bucket s). unfold AccuseNode.bucket at 1, get_object_list, frags_at. autorewrite with gst. destruct (Nat.ltb _ _) eqn:El; [|done].
    rewrite get_frags_set_frags, decide_True by done. by rewrite lookup_insert.
  - right. split; [done|]. unfold AccuseNode.bucket, get_object_list, frags_at. autorewrite with gst. destruct (Nat.ltb _ _); [|done].
    rewrite get_frags_set_frags. destruct (decide (f = Acc)) as [->|]; [|done]. by rewrite lookup_insert_ne.
Qed.

Ltac bk := unfold AccuseNode.bucket, get_object_list; autorewrite with gst; done.
Ltac fr s := apply (OI_frame s _ []); autorewrite with gst; auto; try (intros; by autorewrite with gst); try bk; try (by rewrite app_nil_r); try (by intros ? ?%elem_of_nil).
Ltac tr s l := apply (OI_frame s _ l); auto; autorewrite with gst; auto; try (intros; by autorewrite with gst); try bk; try (by intros x ->%elem_of_list_singleton).

Lemma sends_events g x : x ∈ sends c g -> match x with EvStored _ => False | _ => True end.
Proof using. intros Hx. unfold sends in Hx. by apply elem_of_list_fmap in Hx as (? & -> & _). Qed.

Lemma walk_accused : walk_ok c OI OR Etok (λ _, True) OH GD.
Proof using All.
  pose proof (walk_fair cfgs e p As HA acd stm Hstm u c Hu self_u) as W. split.
  - apply OR_pre.
  - intros t s s' H [HR _]. by eapply (w_tok _ _ _ _ _ _ _ W).
  - intros g s s' [H1 H2] HR. split; [done|]. intros Hc. by eapply enough_stays; [|apply H2].
  - intros g s s' H [HR _]. by eapply (w_D _ _ _ _ _ _ _ W).
  - intros s g k Hk HI [HH HC] Hv Ho Hd. destruct (w_insert _ _ _ _ _ _ _ W s g k) as [A1 A2]; auto; [apply HI|].
    split; [|done]. by apply OI_insert.
  - intros s g k HI [HH HC] Hv Ho. destruct (w_full _ _ _ _ _ _ _ W s g k) as [A1 A2]; auto; [apply HI|].
    split; [|done]. by apply OI_insert.
  - intros s g HI [HH HC] HD Hv Hk. fr s.
    + apply (w_black _ _ _ _ _ _ _ W s g); auto. apply HI.
    + set_solver.
    + rewrite elem_of_union, elem_of_singleton. intros [Hp|?]; [right|by left]. symmetry in Hp.
      destruct Hk as [Hk|Hk]; [specialize (HH Hp); by rewrite Hk in HH|]. by exists g.
  - intros s HI. fr s. apply (w_conv _ _ _ _ _ _ _ W), HI.
  - intros s HI. fr s. apply (w_conv_init _ _ _ _ _ _ _ W), HI.
  - intros s g HI [HH HC] Hv Hk. fr s. apply (w_payload _ _ _ _ _ _ _ W); auto; apply HI.
  - intros s g k HI [HH HC] Hk. pose proof (w_reads _ _ _ _ _ _ _ W s g k (oi_di _ HI) HH Hk) as K.
    apply (OI_frame s _ [EvBefore (get_id g) (length (get_object_list s (get_id g) k))]); auto.
    + intros k'. unfold read_and_store; cbn [fst]. autorewrite with gst. destruct (Nat.ltb _ _); by autorewrite with gst.
    + destruct (reads_bucket s g k Hk) as [(_ & _ & ->)|[_ ->]]; [|done]. destruct (Nat.ltb _ _); [by eexists|done].
    + unfold read_and_store; cbn [fst]; autorewrite with gst. destruct (Nat.ltb _ _); by autorewrite with gst.
    + unfold read_and_store; cbn [fst]; autorewrite with gst. destruct (Nat.ltb _ _); autorewrite with gst; auto.
    + unfold read_and_store; cbn [fst]; autorewrite with gst. destruct (Nat.ltb _ _); by autorewrite with gst.
    + by intros x ->%elem_of_list_singleton.
  - intros s g k HI [HH HC] HD Hv Ho Hk. destruct (w_send _ _ _ _ _ _ _ W s g k) as [A1 A2]; auto; [apply HI|]. split.
    + tr s (sends c g). apply sends_events.
    + tr s [ToMonitor (gc_owner c) g].
  - intros s g k HI [HH HC] Hk. tr s (sends c g); [|apply sends_events]. eapply (w_send_frag _ _ _ _ _ _ _ W); [apply HI|..]; eauto.
  - intros s g k HI [HH HC] Hk. tr s [ToMonitor (gc_owner c) g]. eapply (w_send_full _ _ _ _ _ _ _ W); [apply HI|..]; eauto.
  - intros s g k HI [HH HC] HD Hv Hk Hf. eapply (w_later _ _ _ _ _ _ _ W); eauto. apply HI.
  - intros s0 s g sf Ht I0 Hb HR HI Hs. cbn zeta. pose proof Ht as [_ (f' & Hf & Hk)].
    destruct (w_sign_timer _ _ _ _ _ _ _ W s0 s g sf) as [A1 A2]; auto; [apply I0|apply HR|apply HI|].
    split; [|split; [done|]]; [tr s [EvSigned g (frag_of c g (sigfrag_string sf))]|]. intros [Hc _]. by rewrite (frag_of_kind c g _ f' Hk) in Hc.
  - intros s0 s g sf [HH HC] HD Hv Hk I0 Hb HR HI Hs. cbn zeta.
    destruct (w_sign_acc _ _ _ _ _ _ _ W s0 s g sf) as [A1 A2]; auto; [apply I0|apply HR|apply HI|].
    split; [|split; [done|]]; [tr s [EvSigned g (frag_of c g (sigfrag_string sf))]|]. intros [Hc _]. by rewrite (frag_of_kind c g _ Acc Hk) in Hc.
  - intros s0 s g f' Hf Hk I0 [HH HC] Hm HR HI now. split; [|intros [Hc _]; by rewrite con_kind in Hc].
    eapply (w_mal _ _ _ _ _ _ _ W s0); eauto; [apply I0|apply HR|apply HI].
  - intros s0 s s' g f' l g0 ts Hk I0 [HH HC] HT' HR HI Hl Hag Hh HR' HI' period stamp (s1 & P1 & P2 & P3). cbn zeta.
    destruct (w_fullgen _ _ _ _ _ _ _ W s0 s s' g f' l g0 ts) with (period := period) (stamp := stamp) as [A1 A2]; auto; [apply I0|apply HR|apply HI|apply HR'|apply HI'|exists s1; split_and!; auto; [apply P1|apply P2]|].
    split; [|split; [done|]].
    + tr s' [EvFull (GWalk.full_of period stamp l ts g0 (target_type g))].
    + intros [Hc Hp]. unfold obj_kind in Hc. cbn [g_type GWalk.full_of] in Hc. rewrite (target_kind g f' Hk) in Hc. injection Hc as ->. cbn in Hp.
      assert (g_p0 g = e) as Hpg.
      { destruct HI as [((_ & _ & H3 & _) & _) _ _ _ _]. subst l. unfold get_object_list, frags_at in Hh. destruct (get_frags s Acc !! get_id g) as [l|] eqn:E; [|done].
        rewrite <- Hp. destruct l as [|x l]; [done|]. injection Hh as ->. destruct (proj2 (H3 _ _ _ E) g0) as [Hi _]; [by left|]. by injection Hi. }
      specialize (HH Hpg). rewrite Hk in HH. destruct HH as (v & d & a & Hv & _ & Ha & ->). destruct (acc_fields cfgs e p As HA d a Ha) as (_ & Fi & _).
      destruct (reads_bucket s0 (fragment_by d a) Acc Hk) as [(_ & _ & Eb)|[? _]]; [|done].
      rewrite thr, Fi in HT'. fold (bucket s0) in HT'. destruct (Nat.ltb_spec (length (bucket s0)) T) as [_|]; [|lia].
      assert (enough s') as He.
      { eapply enough_stays; [exact HR'|]. eapply enough_stays; [exact HR|]. unfold enough. rewrite Eb, app_length. cbn [length]. lia. }
      revert He. unfold enough, AccuseNode.bucket, get_object_list. by autorewrite with gst.
  - done.
  - done.
  - done.
Qed.
Notation TT := (λ _ _, True).
Notation safe := (safe OI OR Etok (λ _, True)).
Notation pays := (pays OI (λ _, True) OR).

(** ** Requests *)
Lemma safe_object n g s : fair g -> ~ convicts g -> safe TT (object_handler c n g) s.
Proof using All.
  intros Hh Hn. eapply s_object; [apply walk_accused|by split|]. intros s1 I1 _ Hk. split; [by apply (rebuilt cfgs e As acd stm u)|].
  intros [Hc _]. by rewrite reconstructed in Hc.
Qed.

Lemma safe_notification n s : safe TT (notification_handler c n) s.
Proof using All.
  apply s_note; [|apply OR_pre]. intros s1 url n' HI. tr s1 [ToGossiper url "/gossip/new_payload_request" (MNote n')].
  apply (note_DA cfgs e As acd stm u c), HI.
Qed.

Lemma safe_request n s : safe TT (request_handler n) s.
Proof using All.
  eapply s_request; [apply walk_accused|]. intros s0 s1 j o url I0 Ho HR HI. tr s1 [ToGossiper url "/gossip/rev_init" (MObj o)].
  apply (reply_DA cfgs e As acd stm u c s0 s1 j o url); auto; [apply I0|apply HR|apply HI].
Qed.

(** ** Duties *)
Definition passes (w v : string) (s : gst) : Prop := exists o, frag_ok o /\ g_signer o = w /\ ToGossiper v (endpoint_of (obj_kind o)) (MObj o) ∈ t_trace s.
Definition d_send (w v : string) : duty gst gtask := mkduty (λ s, w ∈ signers s) (passes w v) (λ _, False).
Definition d_full : duty gst gtask := mkduty enough det (λ _, False).
Definition d_black (g : gobj) : duty gst gtask := mkduty (λ s, EvStored g ∈ t_trace s) (λ s, e ∈ t_black s) (λ _, False).
Definition d_report (g : gobj) : duty gst gtask := mkduty (λ s, EvStored g ∈ t_trace s) (λ s, ToMonitor (gc_owner c) g ∈ t_trace s) (λ _, False).
Definition accin (s : gst) : Prop := exists a, a ∈ As /\ EvStored a ∈ t_trace s.
Definition d_own : duty gst gtask := mkduty accin (λ s, u ∈ signers s \/ enough s) (λ _, False).
Definition d_frag (w : string) : duty gst gtask := mkduty (λ _, True) (λ s, w ∈ signers s \/ enough s) (λ _, False).
Definition d_hand : duty gst gtask := mkduty (λ _, True) (λ s, accin s \/ enough s) (λ _, False).

Inductive due : duty gst gtask -> Prop :=
| due_send w v : v ∈ gc_neighbours c -> due (d_send w v)
| due_full : due d_full
| due_black g : convicts g -> due (d_black g)
| due_report g : convicts g -> due (d_report g)
| due_own : due d_own.

Lemma accin_stays s s' : OR s s' -> accin s -> accin s'.
Proof using. intros HR (a & H1 & H2). exists a. split; [done|by eapply trace_in]. Qed.
Lemma due_lasting d : due d -> lasting OR d.
Proof using.
  intros [w v Hv| |g Hg|g Hg|] s s' HR; cbn.
  - intros (o & H1 & H2 & H3). exists o. split_and!; auto. by eapply trace_in.
  - by apply det_stays.
  - apply HR.
  - by apply trace_in.
  - intros [H|H]; [left; by eapply signer_stays|right; by eapply enough_stays].
Qed.
Lemma due_tasks d t : due d -> ~ du_task d t.
Proof using. by intros [w v Hv| |g Hg|g Hg|] []. Qed.
Lemma frag_lasting w : lasting OR (d_frag w).
Proof using. intros s s' HR [H|H]; [left; by eapply signer_stays|right; by eapply enough_stays]. Qed.
Lemma hand_lasting : lasting OR d_hand.
Proof using. intros s s' HR [H|H]; [left; by eapply accin_stays|right; by eapply enough_stays]. Qed.

(** ** Aggregates *)
Lemma full_facts s : OI s -> enough s -> exists ts g0 r, cc_thr_aggregate cc (frags_of (bucket s)) = Some ts /\ bucket s = g0 :: r /\ g_p0 g0 = e /\
  forall period stamp, verify cc (GWalk.full_of period stamp (bucket s) ts g0 ACC_FULL) = Accept.
Proof using HN Hagg Hperm Hdeser HA Hu.
  intros HI He. unfold enough in He. set (l := bucket s) in *. pose proof (hn_enough _ _ HN) as [HT0 _].
  assert (cc_thr_scheme cc = "bls") as Hbls by (by apply (hn_scheme _ _ HN u)).
  assert (exists ts, cc_thr_aggregate cc (frags_of l) = Some ts) as [ts Hts].
  { unfold cc_thr_aggregate, thr_aggregate, frags_of. rewrite Hbls. cbn [String.eqb Ascii.eqb Bool.eqb]. rewrite map_length, thr.
    destruct (Nat.ltb_spec (length l) T); [lia|]. by eexists. }
  destruct l as [|g0 r] eqn:El; [cbn in He; lia|].
  assert (forall x, x ∈ g0 :: r -> frag_ok x) as Hall by (intros x Hx; apply (bucket_frag s); [done|]; fold l; by rewrite El).
  destruct (Hall g0) as (v0 & d0 & a & Hv0 & _ & Ha & E0); [by left|].
  destruct (acc_fields cfgs e p As HA d0 a Ha) as (_ & _ & F0 & _).
  assert (Forall (honest_fragment cc (mkgid p ACC_FRAG e) (g_p1 a) (g_p2 a)) (g0 :: r)) as Hh.
  { apply Forall_forall. intros x Hx. destruct (Hall x Hx) as (w & dw & b & Hw & _ & Hb' & ->).
    destruct (acc_fields cfgs e p As HA dw b Hb') as (_ & Xi & X0 & X1 & X2 & Xs & _). destruct (ac_same _ _ _ _ HA b a Hb' Ha) as (S1 & S2 & _).
    destruct (hn_self _ _ HN w dw Hw) as [Sw Pw]. destruct (hn_keys _ _ HN u c w dw Hu Hw) as (pk & Hpk & Hck).
    split_and!; [done|congruence|congruence|]. exists (the_sig dw b), pk. cbn [sf_id sf_sign NetworkNode.the_sig]. rewrite Sw. split_and!; auto.
    unfold covered. rewrite X0, X1, X2. rewrite <- (proj1 (proj2 (ac_kind _ _ _ _ HA b Hb'))). apply Hck. }
  exists ts, g0, r. split_and!; auto; [by rewrite E0|]. intros period stamp.
  pose proof (full_accepted c Hagg Hperm Hdeser Hbls (set_clock s period "" stamp) Acc (mkgid p ACC_FRAG e) (g_p1 a) (g_p2 a) g0 r (g0 :: r) ts (ac_entity _ _ _ _ HA) eq_refl Hh Hts) as Hv.
  exact Hv.
Qed.

Lemma table_det s g o : OI s -> convicts g -> get_tbl s (OFull Acc) !! get_id g = Some o -> det s.
Proof using.
  intros HI [Hk Hp] Ho. pose proof (oi_tbl _ HI _ _ _ Ho) as He. destruct (table_entry _ _ _ _ HI Ho) as (A1 & A2 & A3).
  exists o. split; [done|]. split; [done|]. injection A2 as _ _ A2. congruence.
Qed.

Lemma pays_full n g s : convicts g -> verify cc g = Accept -> pays d_full (handle_n c (S n) g) s.
Proof using.
  intros Hg Hv. pose proof Hg as [Hk Hp]. cbn [handle_n]. unfold handle_body.
  apply pays_read. intros s1 R1 I1 _. destruct (is_duplicate s1 g) eqn:Ed.
  { apply pays_done. cbn. unfold is_duplicate in Ed. rewrite Hk in Ed. destruct (get_tbl s1 (OFull Acc) !! get_id g) as [o|] eqn:Eo; [|done]. by eapply table_det. }
  apply pays_read. intros s2 R2 I2 _. destruct (in_blacklist s2 (g_p0 g)) eqn:Eb.
  { apply pays_done. apply (oi_black _ I2). rewrite <- Hp. by apply bool_decide_eq_true in Eb. }
  rewrite Hk. unfold handle_full. apply pays_read. intros s3 R3 I3 _. destruct (in_blacklist s3 (g_p0 g)) eqn:Eb3.
  { apply pays_done. apply (oi_black _ I3). rewrite <- Hp. by apply bool_decide_eq_true in Eb3. }
  apply pays_read. intros s4 R4 I4 _. unfold obj_count.
  destruct (get_tbl s4 (OFull Acc) !! get_id g) as [o|] eqn:Eo; cbn [Nat.eqb]; [apply pays_done; by eapply table_det|].
  unfold store. rewrite Hv, Hk. cbn [pbind pmodify]. right. intros s5 R5 I5 _ I5' _ _. apply pays_done.
  exists g. split; [|done]. cbn [fst]. autorewrite with gst. apply elem_of_app. right. by left.
Qed.

(** ** Fragments *)
Lemma frag_facts o : frag_ok o -> obj_kind o = KFrag Acc /\ get_id o = mkgid p ACC_FRAG e /\ g_p0 o = e.
Proof using HA. intros (v & d & a & _ & _ & Ha & ->). destruct (acc_fields cfgs e p As HA d a Ha) as (? & ? & ? & _). done. Qed.

Lemma dup_frag s o : OI s -> frag_ok o -> is_duplicate s o = true -> g_signer o ∈ signers s.
Proof using HN Hdeser HA.
  intros HI Ho Ed. destruct (frag_facts o Ho) as (Fk & Fi & F0). unfold is_duplicate in Ed. rewrite Fk, Fi in Ed. fold (bucket s) in Ed. apply existsb_exists in Ed as (x & Hx & Hs).
  apply elem_of_list_In in Hx. apply elem_of_list_fmap. exists x. split; [|done]. apply (frag_sigs cfgs T HN Hdeser e p As HA acd o x Ho (bucket_frag s x HI Hx)).
  unfold same_sig in Hs. apply andb_true_iff in Hs as [A B]. apply bool_decide_eq_true in A, B. congruence.
Qed.

Lemma pays_frag n o s : frag_ok o -> pays (d_frag (g_signer o)) (handle_n c (S n) o) s.
Proof using HN Hdeser HA Hu.
  intros Ho. destruct (frag_facts o Ho) as (Fk & Fi & F0). cbn [handle_n]. unfold handle_body.
  apply pays_read. intros s1 R1 I1 _. destruct (is_duplicate s1 o) eqn:Ed; [apply pays_done; left; by apply dup_frag|].
  apply pays_read. intros s2 R2 I2 _. destruct (in_blacklist s2 (g_p0 o)) eqn:Eb.
  { apply pays_done. right. apply (oi_det _ I2), (oi_black _ I2). rewrite <- F0. by apply bool_decide_eq_true in Eb. }
  rewrite Fk. unfold handle_frag. apply pays_read. intros s3 R3 I3 _.
  rewrite (no_full_count c) by (first [apply I3|by injection Fi as _ -> _]). cbn [Nat.ltb Nat.leb].
  cbn [pbind patomic]. right. intros s4 R4 I4 _ I4' R4' _. apply pays_done. cbn [d_frag du_done].
  destruct (reads_bucket s4 o Acc Fk) as [(_ & _ & Eb')|[? _]]; [|done]. unfold enough. rewrite Eb'.
  destruct (Nat.ltb_spec (length (bucket s4)) T); [left|by right]. rewrite map_app. apply elem_of_app. right. by left.
Qed.

Lemma own_frag_ok a sf : a ∈ As -> acd u -> cc_thr_sign cc (signed_msg a) = Some sf -> frag_ok (frag_of c a (sigfrag_string sf)) /\ g_signer (frag_of c a (sigfrag_string sf)) = u.
Proof using HN Hu. intros Ha Hac Hs. split; [by apply (own_frag cfgs As acd u c Hu)|]. rewrite <- self_u. by destruct a. Qed.

Lemma signs m : exists sf, cc_thr_sign cc m = Some sf.
Proof using HN Hu. unfold cc_thr_sign. rewrite (hn_scheme _ _ HN u c Hu). cbn [String.eqb Ascii.eqb Bool.eqb]. by eexists. Qed.

(** An accusation is stored. *)
Lemma pays_hand n a s : a ∈ As -> pays d_hand (handle_n c (S n) a) s.
Proof using HN HA Hu.
  intros Ha. destruct (ac_kind _ _ _ _ HA a Ha) as (At & A0 & Ap). pose proof (acc_kind cfgs e p As HA a Ha) as Hk.
  pose proof (ac_accepted _ _ _ _ HA a u c Ha Hu) as Hv. pose proof (hn_enough _ _ HN) as [HT0 _].
  assert (forall s1, OI s1 -> is_duplicate s1 a = true -> accin s1) as Hdup.
  { intros s1 I1 Hd. unfold is_duplicate in Hd. rewrite Hk in Hd. destruct (get_tbl s1 (OInit Acc) !! get_id a) as [o|] eqn:Eo; [|done].
    destruct (table_entry _ _ _ _ I1 Eo) as (_ & Hi & Hko). destruct (oi_di _ I1) as (_ & _ & H3 & _). pose proof (H3 _ _ _ Eo) as Hf.
    assert (g_p0 o = e) as Hp by (injection Hi; congruence). specialize (Hf Hp). rewrite Hko in Hf. exists o. split; [apply Hf|by eapply (oi_tbl _ I1)]. }
  assert (forall s1, OI s1 -> in_blacklist s1 (g_p0 a) = true -> enough s1) as Hbl.
  { intros s1 I1 Hb. apply (oi_det _ I1), (oi_black _ I1). rewrite <- A0. by apply bool_decide_eq_true in Hb. }
  cbn [handle_n]. unfold handle_body.
  apply pays_read. intros s1 R1 I1 _. destruct (is_duplicate s1 a) eqn:Ed; [apply pays_done; left; by apply Hdup|].
  apply pays_read. intros s2 R2 I2 _. destruct (in_blacklist s2 (g_p0 a)) eqn:Eb; [apply pays_done; right; by apply Hbl|].
  rewrite Hk. unfold handle_acc_init. apply pays_read. intros s3 R3 I3 _.
  rewrite (no_full_count c) by (first [apply I3|by rewrite At]). cbn [Nat.ltb Nat.leb].
  apply pays_read. intros s4 R4 I4 _. rewrite (no_frag_count c) by (first [apply I4|by rewrite At]). rewrite thr. destruct (Nat.leb_spec T 0); [lia|].
  unfold store. rewrite Hv, Hk. cbn [pbind patomic]. right. intros s5 R5 I5 _ I5' _ _. apply pays_done. left.
  unfold insert_unless_dup in *. destruct (is_duplicate s5 a) eqn:Ed5; cbn [fst snd] in *; [by apply Hdup|].
  exists a. split; [done|]. cbn [fst]. autorewrite with gst. apply elem_of_app. right. by left.
Qed.

(** ** What is stored leads to what it should *)
Notation calm := (calm (Task:=gtask) due).
Notation dutiful := (dutiful OI OR due).
Definition relevant (g : gobj) : Prop := convicts g \/ g ∈ As.

Lemma calm_mod {A} (h : gst -> gst) (k : unit -> gprog A) : (forall s, bucket (h s) = bucket s) ->
  (forall s g, EvStored g ∈ t_trace (h s) -> EvStored g ∈ t_trace s \/ ~ relevant g) ->
  (forall x, calm (k x)) -> calm (Act (λ s, (h s, tt)) k).
Proof using.
  intros Hb Hh Hk. split; [|done]. intros s d [w v Hv| |g Hg|g Hg|]; cbn; unfold enough; rewrite ?Hb; auto.
  - intros Hx. destruct (Hh s g Hx) as [?|Hn]; [done|]. exfalso. apply Hn. by left.
  - intros Hx. destruct (Hh s g Hx) as [?|Hn]; [done|]. exfalso. apply Hn. by left.
  - intros (a & Ha & Hx). destruct (Hh s a Hx) as [?|Hn]; [by exists a|]. exfalso. apply Hn. by right.
Qed.
Lemma calm_trace {A} l (k : unit -> gprog A) : (forall x, x ∈ l -> match x with EvStored _ => False | _ => True end) ->
  (forall x, calm (k x)) -> calm (Act (λ s, (add_trace s l, tt)) k).
Proof using.
  intros Hl. apply calm_mod; [intros s; bk|]. intros s g. autorewrite with gst. rewrite elem_of_app. intros [?|Hx]; [by left|]. by apply Hl in Hx.
Qed.

Ltac same := intros ? ?; autorewrite with gst; by left.

Lemma calm_black x : calm (add_blacklist x).
Proof using. apply calm_read. intros []; cbn [negb pwhen]; [done|]. apply calm_mod; [intros s; bk|same|done]. Qed.
Lemma calm_conv : calm (note_init_convergence c).
Proof using. apply calm_read. intros []; cbn [negb pwhen]; [|done]. apply calm_mod; [intros s; bk|same|done]. Qed.

Lemma inserted_due k g s d : due d -> du_when d (inserted s k g) -> du_when d s \/ (convicts g /\ (d = d_black g \/ d = d_report g)) \/ (g ∈ As /\ d = d_own).
Proof using.
  assert (bucket (inserted s k g) = bucket s) as Eb by (unfold inserted; bk).
  assert (forall h, EvStored h ∈ t_trace (inserted s k g) -> EvStored h ∈ t_trace s \/ h = g) as Hst.
  { intros h. unfold inserted. autorewrite with gst. rewrite elem_of_app, elem_of_list_singleton. intros [?|[= ->]]; auto. }
  intros [w v Hv| |h Hh|h Hh|]; cbn; unfold enough; rewrite ?Eb; auto.
  - intros Hx. destruct (Hst h Hx) as [?| ->]; auto.
  - intros Hx. destruct (Hst h Hx) as [?| ->]; auto.
  - intros (a & Ha & Hx). destruct (Hst a Hx) as [?| ->]; [left; by exists a|auto].
Qed.

Lemma calm_store g k : ~ relevant g -> obj_kind g = KObj k -> calm (store c g).
Proof using.
  intros Hn Hk. unfold store. destruct (verify cc g); [|done|done].
  assert (forall k, forall s (d : duty gst gtask), due d -> du_when d (insert_unless_dup k g s).1 -> du_when d s) as Hins.
  { intros k' s d Hd. unfold insert_unless_dup. destruct (is_duplicate s g); [done|]. cbn [fst]. fold (inserted s k' g). intros Hw.
    destruct (inserted_due k' g s d Hd Hw) as [?|[[? _]|[? _]]]; [done|..]; exfalso; apply Hn; [by left|by right]. }
  rewrite Hk. destruct k as [f'| |f'].
  - split; [by apply Hins|]. intros []; cbn [negb]; [|done]. apply (calm_bind due (note_init_convergence c) (λ _, Ret true)); [apply calm_conv|done].
  - split; [by apply Hins|]. intros []; cbn [negb]; [|done]. apply (calm_bind due (add_blacklist (g_p0 g))); [apply calm_black|]. intros _.
    apply (calm_bind due (note_init_convergence c) (λ _, Ret true)); [apply calm_conv|done].
  - apply calm_mod; [intros s; bk| |].
    + intros s h. autorewrite with gst. rewrite elem_of_app, elem_of_list_singleton. intros [?|[= ->]]; auto.
    + intros _. apply calm_bind; [|done]. destruct (bool_decide _); cbn [pwhen]; [apply calm_black|done].
Qed.

Lemma pays_after {A B} d (Z : A -> Prop) (q : gprog A) (r : A -> gprog B) s : sound Z q -> (forall x s, Z x -> pays d (r x) s) -> pays d (pbind q r) s.
Proof using.
  intros Hp Hq. revert s. induction q as [x|w|X h k IH|t k IH]; intros s; cbn in *; [by apply Hq|done|..].
  - right. intros. apply IH. apply Hp.
  - right. right. by apply IH.
Qed.

Lemma sends_calm {A} g (k : unit -> gprog A) : (forall x, calm (k x)) -> calm (pbind (send_to_gossipers c g) k).
Proof using. intros Hk. apply calm_trace; [|done]. intros x Hx. apply elem_of_list_fmap in Hx as (v & -> & _). done. Qed.
Lemma monitor_calm {A} g (k : unit -> gprog A) : (forall x, calm (k x)) -> calm (pbind (send_to_monitor c g) k).
Proof using. intros Hk. apply calm_trace; [|done]. by intros x ->%elem_of_list_singleton. Qed.

Lemma black_pays g s : g_p0 g = e -> pays (d_black g) (add_blacklist (g_p0 g)) s.
Proof using.
  intros Hp. unfold add_blacklist. apply pays_read. intros s1 _ I1 _. destruct (in_blacklist s1 (g_p0 g)) eqn:Eb; cbn [negb pwhen].
  - apply pays_done. cbn. rewrite <- Hp. by apply bool_decide_eq_true in Eb.
  - right. intros s2 _ _ _ _ _ _. apply pays_done. cbn [fst d_black du_done]. autorewrite with gst. rewrite Hp. apply elem_of_union_l. by apply elem_of_singleton.
Qed.

(** Aggregates are reported and the entity blacklisted. *)
Lemma dutiful_full n f' g : obj_kind g = KObj (OFull f') -> dutiful (handle_n c (S n) g).
Proof using HA.
  intros Hk. cbn [handle_n]. unfold handle_body. apply dutiful_read. intros []; [done|]. apply dutiful_read. intros []; [done|]. rewrite Hk.
  unfold handle_full. apply dutiful_read. intros []; [done|]. apply dutiful_read. intros n1.
  assert (calm (do conv <- pread (is_convergent c); pwhen conv (pmodify (λ s, set_conv s (k_second s))))) as Hconv.
  { apply calm_read. intros []; cbn [pwhen]; [|done]. apply calm_mod; [intros s; bk|same|done]. }
  apply dutiful_seq; [|intros _; by apply calm_dutiful].
  destruct (Nat.eqb _ _); [|done]. unfold store. destruct (verify cc g); [|apply calm_dutiful, monitor_calm; done|done].
  rewrite Hk. cbn [pbind pmodify]. split.
  2: { intros _. apply calm_dutiful. apply calm_bind; [|intros _; by apply monitor_calm]. apply calm_bind; [destruct (bool_decide _); cbn [pwhen]; [apply calm_black|done]|done]. }
  intros s I1 I2 HR d Hd. cbn [fst snd]. fold (inserted s (OFull f') g). intros Hw.
  destruct (inserted_due (OFull f') g s d Hd Hw) as [?|[[Hg Hdd]|[Ha ->]]]; [by left|right|].
  2: { pose proof (acc_kind cfgs e p As HA g Ha). congruence. }
  assert (f' = Acc) as -> by (destruct Hg as [Hg _]; congruence). rewrite bool_decide_eq_true_2 by done. cbn [pwhen].
  destruct Hdd as [->| ->].
  - apply pays_first, pays_first. apply black_pays. apply Hg.
  - eapply (pays_after _ (λ _, True)); [|].
    + eapply (sound_bind (λ _, True)); [apply sound_black|done].
    + intros x s1 _. right. intros s2 _ _ _ _ _ _. apply pays_done. cbn [fst d_report du_done]. autorewrite with gst. apply elem_of_app. right. by left.
Qed.

Lemma sound_read {A X} (Z : A -> Prop) (f : gst -> X) (k : X -> gprog A) : (forall x, sound Z (k x)) -> sound Z (Act (λ s, (s, f s)) k).
Proof using. done. Qed.
Lemma accepted_sound n f' g : obj_kind g = KObj (OFull f') -> verify cc g <> Panics -> sound (λ _, True) (handle_n c (S n) g).
Proof using.
  intros Hk Hv. cbn [handle_n]. unfold handle_body. apply sound_read. intros []; [done|]. apply sound_read. intros []; [done|]. rewrite Hk. unfold handle_full.
  apply sound_read. intros []; [done|]. apply sound_read. intros n1. eapply (sound_bind (λ _, True)).
  - destruct (Nat.eqb _ _); [|done]. unfold store. destruct (verify cc g); [|done|done]. rewrite Hk. cbn [pbind pmodify]. intros _.
    eapply (sound_bind (λ _, True)); [|done]. eapply (sound_bind (λ _, True)); [|done]. destruct (bool_decide _); cbn [pwhen]; [apply sound_black|done].
  - intros _ _ []; done.
Qed.

Lemma calm_frag g : calm (generate_frag c g).
Proof using. unfold generate_frag. destruct (cc_thr_sign _ _); [|done]. apply calm_trace; [|done]. by intros x ->%elem_of_list_singleton. Qed.
Lemma calm_aggregate l ty : calm (generate_full c l ty).
Proof using. unfold generate_full. destruct (cc_thr_aggregate _ _); [|done]. destruct l; [done|]. by apply calm_read. Qed.

(** Making and signing one's own fragment. *)
Lemma pays_own n a s : a ∈ As -> acd u -> pays d_own (do fr <- generate_frag c a; handle_n c (S n) fr) s.
Proof using HN Hdeser HA Hu.
  intros Ha Hac. unfold generate_frag. destruct (signs (signed_msg a)) as [sf Hs]. rewrite Hs. cbn [pbind pmodify]. right. intros s1 _ _ _ _ _ _.
  destruct (own_frag_ok a sf Ha Hac Hs) as [Hf Hw]. pose proof (pays_frag n _ (add_trace s1 [EvSigned a (frag_of c a (sigfrag_string sf))]) Hf) as Hp. rewrite Hw in Hp. eapply pays_weaken; [| |exact Hp]; done.
Qed.

(** Making an aggregate of the fragments held. *)
Lemma pays_make {B} d n g (k : unit -> gprog B) s : get_id g = mkgid p ACC_FRAG e -> enough s ->
  (forall full s1, convicts full -> verify cc full = Accept -> pays d (pbind (handle_n c (S n) full) k) s1) ->
  pays d (pbind (do l <- pread (λ s, get_object_list s (get_id g) Acc); do full <- generate_full c l (target_type g);
    pmodify (λ s, add_trace s [EvFull full]) >>> handle_n c (S n) full) k) s.
Proof using HN Hagg Hperm Hdeser HA Hu.
  intros Hi He Hk. cbn [pbind pread]. apply pays_read. intros s1 R1 I1 _.
  assert (target_type g = ACC_FULL) as Ht by (unfold target_type, obj_kind; injection Hi as _ -> _; done).
  rewrite Hi. change (get_object_list s1 (mkgid p ACC_FRAG e) Acc) with (bucket s1).
  destruct (full_facts s1 I1 (enough_stays _ _ R1 He)) as (ts & g0 & r0 & Ha & Hl & H0 & Hv). unfold generate_full. unfold frags_of in Ha. rewrite Ha, Ht.
  revert Hv. rewrite Hl. intros Hv. cbn [pbind pread]. apply pays_read. intros s2 _ _ _. cbn [pbind pmodify fst snd]. right. intros s3 _ _ _ _ _ _.
  apply Hk; [split; [done|exact H0]|]. apply Hv.
Qed.

Lemma dutiful_rank n : forall g, rank g <= n -> dutiful (handle_n c n g).
Proof using All.
  induction n as [|n IH]; intros g Hr; [done|].
  destruct (obj_kind g) as [[f| |f']|f|] eqn:Hk; [| |by eapply dutiful_full| |];
  cbn [handle_n]; unfold handle_body; (apply dutiful_read; intros []; [done|]); (apply dutiful_read; intros []; [done|]); rewrite Hk.
  - unfold rank in Hr. rewrite Hk in Hr.
    assert (forall f', f' <> Acc -> f = f' -> dutiful (handle_init c (handle_n c n) f' g)) as Hinit.
    { intros f' Hf ->. unfold handle_init. apply dutiful_read. intros n1. destruct (Nat.ltb _ _); [done|]. apply dutiful_read. intros n2. destruct (Nat.leb _ _); [done|].
      apply dutiful_read. intros []; [apply dutiful_read; intros o1; apply dutiful_read; intros now; apply IH; unfold rank; rewrite con_kind; lia|].
      apply dutiful_bind.
      - eapply calm_store; [|exact Hk]. intros [[? _]|Ha]; [congruence|]. pose proof (acc_kind cfgs e p As HA g Ha). congruence.
      - intros []; [|done]. apply calm_dutiful, sends_calm. intros _. by apply monitor_calm. }
    destruct f; [by apply Hinit|by apply Hinit|].
    unfold handle_acc_init. apply dutiful_read. intros n1. destruct (Nat.ltb _ _); [done|]. apply dutiful_read. intros n2. destruct (Nat.leb _ _); [done|].
    assert (dutiful (do fr <- generate_frag c g; handle_n c n fr)) as Hgen.
    { unfold generate_frag. destruct (cc_thr_sign cc (signed_msg g)) as [sf|]; [|done]. 
      apply (dutiful_bind _ _ _ (pmodify (λ s, add_trace s [EvSigned g (frag_of c g (sigfrag_string sf))]))); [apply calm_trace; [|done]; by intros x ->%elem_of_list_singleton|].
      intros _. apply IH. unfold rank. rewrite (frag_of_kind c g _ Acc Hk). lia. }
    assert (dutiful (do b <- pread (λ s, in_blacklist s (g_p0 g)); if b : bool then pskip else do fr <- generate_frag c g; handle_n c n fr)) as Hrest.
    { apply dutiful_read. by intros []. }
    unfold store. destruct (verify cc g); [|done|done]. rewrite Hk. cbn [pbind patomic]. split.
    2: { intros []; cbn [negb]; [|done]. apply dutiful_bind; [apply calm_bind; [apply calm_conv|done]|]. intros []; [exact Hrest|done]. }
    intros s I1 I2 HR d Hd. unfold insert_unless_dup. destruct (is_duplicate s g) eqn:Ed; cbn [fst snd]; [by left|]. fold (inserted s (OInit Acc) g). intros Hw.
    destruct (inserted_due (OInit Acc) g s d Hd Hw) as [?|[[[? _] _]|[Ha ->]]]; [by left|congruence|right]. cbn [negb].
    assert (acd u) as Hac.
    { assert (get_tbl (inserted s (OInit Acc) g) (OInit Acc) !! get_id g = Some g) as Ht by (unfold inserted; autorewrite with gst; rewrite get_tbl_set_tbl, decide_True by done; by rewrite lookup_insert).
      unfold insert_unless_dup in I2. rewrite Ed in I2. destruct (oi_di _ I2) as (_ & _ & H3 & _). pose proof (H3 _ _ _ Ht) as Hf.
      specialize (Hf (proj1 (proj2 (ac_kind _ _ _ _ HA g Ha)))). rewrite Hk in Hf. apply Hf. }
    eapply (pays_after _ (λ x, x = true)); [eapply (sound_bind (λ _, True)); [apply sound_conv|done]|]. intros x s1 ->. cbn [negb].
    apply pays_read. intros s2 _ J2 _. destruct (in_blacklist s2 (g_p0 g)) eqn:Eb.
    { apply pays_done. right. apply (oi_det _ J2), (oi_black _ J2). rewrite <- (proj1 (proj2 (ac_kind _ _ _ _ HA g Ha))). by apply bool_decide_eq_true in Eb. }
    destruct n as [|n]; [lia|]. by apply pays_own.
  - unfold handle_con. apply dutiful_read. intros n1. destruct (Nat.eqb _ _); [|done]. apply dutiful_bind.
    + eapply calm_store; [|exact Hk]. intros [[? _]|Ha]; [congruence|]. pose proof (acc_kind cfgs e p As HA g Ha). congruence.
    + intros []; [|done]. apply calm_dutiful, sends_calm. intros _. by apply monitor_calm.
  - unfold rank in Hr. rewrite Hk in Hr. destruct n as [|n]; [lia|]. unfold handle_frag. apply dutiful_read. intros n1. destruct (Nat.ltb _ _); [done|].
    split.
    2: { intros before. cbn [pbind]. apply dutiful_seq.
      - match goal with |- context [if ?b then _ else _] => destruct b end; [|done]. apply dutiful_read. intros l. unfold generate_full.
        destruct (cc_thr_aggregate _ _) as [ts|]; [|done]. destruct l as [|g0 r]; [done|]. apply dutiful_read. intros now. cbn [pbind].
        match goal with |- context [EvFull ?x] => set (full := x) end.
        apply (dutiful_bind _ _ _ (pmodify (λ s, add_trace s [EvFull full]))); [apply calm_trace; [|done]; by intros x ->%elem_of_list_singleton|].
        intros _. eapply (dutiful_full n f). unfold obj_kind. cbn [g_type full]. apply (target_kind g f Hk).
      - intros _. match goal with |- context [pwhen ?b _] => destruct b end; cbn [pwhen]; [|done]. apply calm_dutiful. apply calm_trace; [|done].
        intros x Hx. apply elem_of_list_fmap in Hx as (v & -> & _). done. }
    intros s I1 I2 HR d Hd.
    assert (forall h, EvStored h ∈ t_trace (read_and_store c f g s).1 -> EvStored h ∈ t_trace s) as Hst.
    { intros h. unfold read_and_store. cbn [fst snd]. autorewrite with gst. rewrite elem_of_app, elem_of_list_singleton. intros [Hx|?]; [|done].
      destruct (Nat.ltb (length (get_object_list s (get_id g) f)) _); by autorewrite with gst in Hx. }
    assert (bucket (read_and_store c f g s).1 = bucket s -> du_when d (read_and_store c f g s).1 -> du_when d s) as Hsame.
    { intros Eb. destruct Hd as [w v Hv| |h Hh|h Hh|]; cbn [du_when d_send d_full d_black d_report d_own]; unfold enough; rewrite ?Eb; auto.
      intros (a & Ha & Hx). exists a. auto. }
    destruct (reads_bucket s g f Hk) as [(Hi & -> & Eb)|[_ Eb]]; [|left; by apply Hsame].
    destruct (Nat.ltb_spec (length (bucket s)) T) as [Hlt|]; [|left; by apply Hsame].
    set (s' := (read_and_store c Acc g s).1) in *.
    assert (frag_ok g) as Hg by (apply (bucket_frag s'); [done|]; rewrite Eb; apply elem_of_app; right; by left).
    assert ((read_and_store c Acc g s).2 = length (bucket s)) as ->.
    { unfold read_and_store. cbn [snd]. change (get_object_list s (get_id g) Acc) with (default [] (t_acc_frag s !! get_id g)). by rewrite Hi. }
    destruct Hd as [w v Hv| |h Hh|h Hh|]; cbn [du_when d_send d_full d_black d_report d_own]; intros Hw.
    + rewrite Eb, map_app in Hw. apply elem_of_app in Hw as [Hw|Hw]; [by left|right]. apply elem_of_list_singleton in Hw as ->. rewrite thr. match goal with |- context [pbind (Ret ?x) ?k] => change (pbind (Ret x) k) with (k x); cbv beta end. 
      assert (forall s2, pays (d_send (g_signer g) v) (pwhen (Nat.ltb (length (bucket s)) T) (send_to_gossipers c g)) s2) as Hsend.
      { intros s2. destruct (Nat.ltb_spec (length (bucket s)) T); [|lia]. right. intros s3 _ _ _ _ _ _. apply pays_done. exists g. split_and!; auto. cbn [fst].
        autorewrite with gst. apply elem_of_app. right. apply elem_of_list_fmap. exists v. split; [|done]. unfold outgoing. by rewrite Hk. }
      destruct (Nat.eqb_spec (S (length (bucket s))) T) as [HS|]; [|apply Hsend].
      apply (pays_make _ n g (λ _, pwhen (Nat.ltb (length (bucket s)) T) (send_to_gossipers c g))); auto.
      { unfold enough. fold s'. rewrite Eb, app_length. cbn [length]. lia. }
      intros full s1 Hc Hvf. eapply (pays_after _ (λ _, True)); [|auto]. eapply accepted_sound; [apply Hc|congruence].
    + unfold enough in Hw. rewrite Eb, app_length in Hw. cbn [length] in Hw. right. rewrite thr. match goal with |- context [pbind (Ret ?x) ?k] => change (pbind (Ret x) k) with (k x); cbv beta end. 
      destruct (Nat.eqb_spec (S (length (bucket s))) T) as [HS|]; [|lia].
      apply (pays_make _ n g (λ _, pwhen (Nat.ltb (length (bucket s)) T) (send_to_gossipers c g))); auto.
      { unfold enough. fold s'. rewrite Eb, app_length. cbn [length]. lia. }
      intros full s1 Hc Hvf. apply pays_first. by apply pays_full.
    + left. auto.
    + left. auto.
    + left. destruct Hw as (a & Ha & Hx). exists a. auto.
  - done.
Qed.

Lemma dutiful_handle g : dutiful (handle c g).
Proof using All. apply dutiful_rank, rank_le. Qed.
Lemma dutiful_task t : dutiful (start_task c t).
Proof using All. destruct t as [g]. apply dutiful_read. intros []; [done|]. apply dutiful_bind; [apply calm_frag|]. intros fr. apply dutiful_handle. Qed.
Lemma dutiful_object b g : dutiful (object_handler c b g).
Proof using All.
  unfold object_handler. apply dutiful_bind.
  - destruct (_ && _); cbn; [|done]. unfold save_payload. destruct (verify cc g); [|done|done]. apply calm_mod; [intros s; bk|same|done].
  - intros _. destruct (_ && _); [|apply dutiful_handle]. apply dutiful_read. intros g'. apply dutiful_handle.
Qed.
Lemma dutiful_notification n : dutiful (notification_handler c n).
Proof using. apply dutiful_read. intros []; cbn [negb pwhen]; [done|]. apply calm_dutiful, calm_trace; [|done]. by intros x ->%elem_of_list_singleton. Qed.
Lemma dutiful_request n : dutiful (request_handler n).
Proof using. apply dutiful_read. intros o. destruct (negb _); cbn [pwhen]; [|done]. apply calm_dutiful, calm_trace; [|done]. by intros x ->%elem_of_list_singleton. Qed.
End node.
