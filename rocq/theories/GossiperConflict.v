(** Sequential histories: conflicts are published, one signature per
    statement. *)
From Verif Require Import Bytes Hex Json Types Crypto Verify Prog Gossiper SpecVerify SpecGossiper ProgFacts GstFacts CodecFacts CryptoFacts VerifyFacts GWalk GossiperInv GossiperSeq GossiperEvidence GossiperStep GossiperSeqInv.
From Coq Require Import Lia.
Open Scope string_scope.

Section conflict.
Context {P : prims} (cfg : gconf P).
Notation cc := (gc_crypto cfg).
Notation T := (cc_threshold cc).

(** ** A stored conflict proof means a blacklisted entity *)
Definition CB (s : gst) : Prop := forall i o, get_tbl s OCon !! i = Some o -> g_p0 o ∈ t_black s.

Lemma CB_frame s s' : get_tbl s' OCon = get_tbl s OCon -> t_black s' = t_black s -> CB s -> CB s'.
Proof. intros E1 E2 H i o. rewrite E1, E2. apply H. Qed.

Lemma CB_ok : seq_ok cfg CB (λ _, True).
Proof.
  split; try done.
  - intros s l H _. eapply CB_frame; [| |exact H]; by autorewrite with gst.
  - intros s g fr H _. eapply CB_frame; [| |exact H]; by autorewrite with gst.
  - intros s g f H _ Hf _ _ _ _. eapply CB_frame; [| |exact H]; unfold inserted; autorewrite with gst; [|done]. by rewrite get_tbl_set_tbl.
  - intros s g H _ _. eapply CB_frame; [| |exact H]; unfold inserted; autorewrite with gst; [|done]. by rewrite get_tbl_set_tbl.
  - intros s g H _ _ _ i o. destruct (black_add_fields (inserted s OCon g) (g_p0 g)) as (E1 & _ & E2 & _). rewrite E1, E2.
    unfold inserted. autorewrite with gst. rewrite get_tbl_set_tbl_eq. intros [[<- <-]|[_ Ho]]%lookup_insert_Some; [set_solver|].
    apply H in Ho. set_solver.
  - intros s g f H _ _. destruct (decide _) as [->|Hf].
    + destruct (black_add_fields (inserted s (OFull Acc) g) (g_p0 g)) as (E1 & _ & E2 & _). intros i o. rewrite E1, E2.
      unfold inserted. autorewrite with gst. rewrite get_tbl_set_tbl. cbn. intros Ho. apply H in Ho. set_solver.
    + eapply CB_frame; [| |exact H]; unfold inserted; autorewrite with gst; [|done]. by rewrite get_tbl_set_tbl.
  - intros s g f H _. eapply CB_frame; [| |exact H]; unfold read_and_store; cbn [fst]; autorewrite with gst; destruct (Nat.ltb _ _); by autorewrite with gst.
  - intros s H. eapply CB_frame; [| |exact H]; by autorewrite with gst.
  - intros s H. eapply CB_frame; [| |exact H]; by autorewrite with gst.
  - intros s g H _ _. eapply CB_frame; [| |exact H]; by autorewrite with gst.
  - intros s x y z H. eapply CB_frame; [| |exact H]; by autorewrite with gst.
Qed.

Lemma steps_CB a b c l : CB (s_st (steps cfg (init_gsys a b c) l)).
Proof.
  assert (forall y, JS CB y -> JS CB (steps cfg y l)) as H.
  { induction l as [|e l IH]; intros y Hy; [done|]. cbn. apply IH. apply (step_fine cfg CB (λ _, True) CB_ok); [by destruct e| |done].
    intros _ HC. destruct (periodic_run (s_st y)) as (s' & -> & E1 & E2 & _). cbn. by eapply CB_frame. }
  apply H. split; [|by constructor]. intros i o. cbn. by rewrite lookup_empty.
Qed.

(** ** A conflicting statement *)
Lemma con_accepted now o g f : obj_kind o = KObj (OInit f) -> obj_kind g = KObj (OInit f) ->
  verify cc o = Accept -> verify cc g = Accept -> verify cc (generate_con now o g) = Accept.
Proof.
  intros Ho Hg. unfold verify. rewrite Ho, Hg, con_kind. unfold verify_rsa_payload, verify_con, generate_con. cbn [g_s0 g_s1 g_p1 g_p2].
  destruct (_ && _); [|done]. destruct (rsasig_from_string (g_s0 o)); [|done]. intros ->.
  destruct (_ && _); [|done]. destruct (rsasig_from_string (g_s0 g)); [|done]. intros ->. done.
Qed.

Lemma statement_fam g : statement g -> exists f, f <> Acc /\ obj_kind g = KObj (OInit f).
Proof. intros [H|H]; [exists Sth|exists Rev]; (split; [done|]); unfold obj_kind; by rewrite H. Qed.

Lemma conflict_published a b c l g o f (s := s_st (steps cfg (init_gsys a b c) l)) :
  0 < T -> f <> Acc -> obj_kind g = KObj (OInit f) ->
  get_tbl s (OInit f) !! get_id g = Some o -> g_signer o = g_signer g -> (g_s0 o, g_s1 o) <> (g_s0 g, g_s1 g) ->
  verify cc g = Accept -> g_p0 g ∉ t_black s ->
  let con := generate_con (k_period s, k_stamp s) o g in
  exists s', run (handle cfg g) s = (s', [], Done tt) /\
    get_tbl s' OCon = <[get_id con := con]> (get_tbl s OCon) /\ (forall k, k <> OCon -> get_tbl s' k = get_tbl s k) /\
    t_black s' = {[g_p0 g]} ∪ t_black s /\
    t_trace s' = (t_trace s ++ EvStored con :: map (λ url, ToGossiper url "/gossip/con_init" (MObj con)) (gc_neighbours cfg)
                  ++ [ToMonitor (gc_owner cfg) con])%list.
Proof.
  intros HT Hf Hk Ho Hsg Hne Hv Hb con. pose proof (steps_GI cfg a b c l) as HI. pose proof (steps_CB a b c l) as HC. fold s in HI, HC.
  destruct HI as (HI1 & HIr) eqn:EI. clear EI. pose proof (HI1 _ _ _ Ho) as (Ov & Oi & Ot).
  assert (obj_kind o = KObj (OInit f)) as Ok by (by apply obj_kind_obj).
  assert (same_sig o g = false) as Hss.
  { unfold same_sig. do 2 case_bool_decide; try done. exfalso. apply Hne. congruence. }
  assert (same_sig g o = false) as Hss'.
  { unfold same_sig. do 2 case_bool_decide; try done. exfalso. apply Hne. congruence. }
  assert (g_p0 o = g_p0 g) as Hp by (by injection Oi).
  assert (is_duplicate s g = false) as Hd by (unfold is_duplicate; by rewrite Hk, Ho).
  assert (in_blacklist s (g_p0 g) = false) as Hbl by (unfold in_blacklist; by rewrite bool_decide_eq_false_2).
  assert (is_malicious s g = true) as Hm.
  { unfold is_malicious, get_object, obj_at. rewrite Hk. destruct f; [| |done]; rewrite Ho, Hss', bool_decide_eq_true_2 by done; done. }
  assert (get_object s (get_id g) (OInit f) = o) as Hgo by (unfold get_object, obj_at; by rewrite Ho).
  assert (get_tbl s OCon !! get_id con = None) as Hno.
  { destruct (get_tbl s OCon !! get_id con) as [x|] eqn:E; [|done]. exfalso. apply Hb.
    pose proof (HI1 _ _ _ E) as (_ & Xi & _). injection Xi as _ _ Xp. cbn in Xp. rewrite <- Hp, <- Xp. by eapply HC. }
  unfold handle. rewrite (handle_stmt cfg 2 f) by (auto; by split). rewrite Hd, Hbl, Hm, Hgo. fold con.
  assert (obj_kind con = KObj OCon) as Ck by apply con_kind. rewrite (handle_conflict cfg 1) by done.
  assert (is_duplicate s con = false) as -> by (unfold is_duplicate; by rewrite Ck, Hno).
  assert (g_p0 con = g_p0 g) as Ep by done. rewrite Ep, Hbl, Hno.
  assert (verify cc con = Accept) as -> by (by apply (con_accepted _ o g f)).
  eexists. split; [reflexivity|]. unfold published. autorewrite with gst.
  destruct (conv_i_fields cfg (black_add (inserted s OCon con) (g_p0 g))) as (E1 & _ & E2 & E3 & _).
  destruct (black_add_fields (inserted s OCon con) (g_p0 g)) as (F1 & _ & F2 & F3 & _). split_and!.
  - autorewrite with gst. rewrite E1, F1. unfold inserted. autorewrite with gst. by rewrite get_tbl_set_tbl_eq.
  - intros k Hkk. autorewrite with gst. rewrite E1, F1. unfold inserted. autorewrite with gst. rewrite get_tbl_set_tbl. by rewrite decide_False.
  - rewrite E2, F2. unfold inserted. by autorewrite with gst.
  - rewrite E3, F3. unfold inserted, sends, outgoing. autorewrite with gst. rewrite Ck. rewrite <- !app_assoc. done.
Qed.

(** ** One signature per statement *)
Section once.
Context (sg : gid -> string).

(** Delivered statements with one identifier name one signer. *)
Definition named (g : gobj) : Prop := statement g -> g_signer g = sg (get_id g) /\ g_signer g <> "".

Definition OS (s : gst) : Prop :=
  (forall g, EvStored g ∈ t_trace s -> statement g -> exists f, obj_kind g = KObj (OInit f) /\ get_tbl s (OInit f) !! get_id g = Some g) /\
  (forall f i o, f <> Acc -> get_tbl s (OInit f) !! i = Some o -> get_id o = i /\ g_signer o = sg i /\ g_signer o <> "") /\
  (forall g fr, EvSigned g fr ∈ t_trace s -> EvStored g ∈ t_trace s).

Lemma OS_frame s s' : (forall k, k <> OCon -> get_tbl s' k = get_tbl s k) -> t_trace s' = t_trace s -> OS s -> OS s'.
Proof using.
  clear. intros E1 E2 (H1 & H2 & H3). split_and!.
  - intros g. rewrite E2. intros Hg Hs. destruct (H1 g Hg Hs) as (f & ? & ?). exists f. by rewrite E1.
  - intros f i o Hf. rewrite E1 by done. by apply H2.
  - intros g fr. rewrite E2. apply H3.
Qed.

Lemma OS_trace s s' l : (forall k, get_tbl s' k = get_tbl s k) -> t_trace s' = (t_trace s ++ l)%list -> 
  (forall g, EvStored g ∈ l -> ~ statement g) -> (forall g fr, EvSigned g fr ∈ l -> EvStored g ∈ t_trace s) -> OS s -> OS s'.
Proof using.
  clear. intros E1 E2 E3 E4 (H1 & H2 & H3). split_and!.
  - intros g. rewrite E2, elem_of_app. intros [Hg|Hg] Hs; [|by apply E3 in Hg]. destruct (H1 g Hg Hs) as (f & ? & ?). exists f. by rewrite E1.
  - intros f i o. rewrite E1. apply H2.
  - intros g fr. rewrite E2, !elem_of_app. intros [Hg|Hg]; left; eauto.
Qed.

Lemma OS_inserted s k g : k <> OInit Sth -> k <> OInit Rev -> obj_kind g = KObj k -> OS s -> OS (inserted s k g).
Proof using.
  clear. intros K1 K2 Hk HO. assert (~ statement g) as Hns.
  { intros [Hs|Hs]; unfold obj_kind in Hk; rewrite Hs in Hk; cbn in Hk; congruence. }
  unfold inserted. apply (OS_trace (set_tbl s k (<[get_id g:=g]> (get_tbl s k))) _ [EvStored g]).
  - intros k'. by autorewrite with gst.
  - by autorewrite with gst.
  - intros g' Hg'. apply elem_of_list_singleton in Hg' as [= ->]. done.
  - intros g' fr Hg'. by apply elem_of_list_singleton in Hg'.
  - destruct HO as (H1 & H2 & H3). split_and!.
    + intros g' Hg' Hs. autorewrite with gst in Hg'. destruct (H1 g' Hg' Hs) as (f & Hf & Hl). exists f. split; [done|].
      rewrite get_tbl_set_tbl. rewrite decide_False; [done|]. intros ->. destruct f; try done.
      destruct Hs as [Hs|Hs]; unfold obj_kind in Hf; rewrite Hs in Hf; done.
    + intros f i o Hf. rewrite get_tbl_set_tbl. rewrite decide_False; [by apply H2|]. intros ->. by destruct f.
    + intros g' fr. autorewrite with gst. apply H3.
Qed.

Lemma OS_ok : seq_ok cfg OS named.
Proof using.
  split.
  - intros g Hg Hs. done.
  - intros s l H Hl. rewrite Forall_forall in Hl. eapply OS_trace; [intros; by autorewrite with gst|by autorewrite with gst| | |exact H].
    + intros g Hg. by apply Hl in Hg.
    + intros g fr Hg. by apply Hl in Hg.
  - intros s g fr H Hg. eapply OS_trace; [intros; by autorewrite with gst|by autorewrite with gst| | |exact H].
    + intros g' Hg'. by apply elem_of_list_singleton in Hg'.
    + intros g' fr' Hg'. apply elem_of_list_singleton in Hg' as [= -> ->]. done.
  - intros s g f (H1 & H2 & H3) Hn Hf Hk Hv Hd Hm. pose proof (statement_of g f Hf Hk) as Hs. destruct (Hn Hs) as [N1 N2].
    assert (get_tbl s (OInit f) !! get_id g = None) as Hno.
    { destruct (get_tbl s (OInit f) !! get_id g) as [o|] eqn:E; [|done]. exfalso. destruct (H2 f _ _ Hf E) as (_ & O1 & O2).
      unfold is_duplicate in Hd. rewrite Hk, E in Hd.
      assert (same_sig g o = false) as Hd' by (revert Hd; unfold same_sig; repeat case_bool_decide; try done; congruence).
      unfold is_malicious, get_object, obj_at in Hm. rewrite Hk in Hm. destruct f; [| |done]; rewrite E, Hd', bool_decide_eq_true_2 in Hm by congruence; done. }
    unfold inserted. split_and!.
    + intros g'. autorewrite with gst. rewrite elem_of_app, elem_of_list_singleton. intros Hg' Hs'.
      destruct Hg' as [Hg'|[= ->]].
      * destruct (H1 g' Hg' Hs') as (f' & Hk' & Hl). exists f'. split; [done|]. autorewrite with gst. rewrite get_tbl_set_tbl.
        destruct (decide _) as [Ef|]; [|done]. injection Ef as <-. rewrite lookup_insert_ne; [done|]. intros E. congruence.
      * exists f. split; [done|]. autorewrite with gst. by rewrite get_tbl_set_tbl_eq, lookup_insert.
    + intros f' i o Hf'. autorewrite with gst. rewrite get_tbl_set_tbl. destruct (decide _) as [Ef|]; [|by apply H2]. injection Ef as <-.
      intros [[<- <-]|[_ Ho]]%lookup_insert_Some; [done|]. by apply (H2 f).
    + intros g' fr. autorewrite with gst. rewrite !elem_of_app, !elem_of_list_singleton. intros [Hg'|Hg']; [left; by eapply H3|done].
  - intros s g H Hk _. by apply OS_inserted.
  - intros s g H Hk _ _. apply (OS_frame (inserted s OCon g)); [| |by apply OS_inserted].
    + intros k _. by destruct (black_add_fields (inserted s OCon g) (g_p0 g)) as (-> & _).
    + by destruct (black_add_fields (inserted s OCon g) (g_p0 g)) as (_ & _ & _ & -> & _).
  - intros s g f H Hk _. destruct (decide _) as [->|Hf]; [|by apply OS_inserted].
    apply (OS_frame (inserted s (OFull Acc) g)); [| |by apply OS_inserted].
    + intros k _. by destruct (black_add_fields (inserted s (OFull Acc) g) (g_p0 g)) as (-> & _).
    + by destruct (black_add_fields (inserted s (OFull Acc) g) (g_p0 g)) as (_ & _ & _ & -> & _).
  - intros s g f H Hk. unfold read_and_store. cbn [fst].
    eapply (OS_trace (if Nat.ltb _ _ then _ else s) _ [EvBefore _ _]); [intros; autorewrite with gst; reflexivity|by autorewrite with gst| | |].
    + intros g' Hg'. by apply elem_of_list_singleton in Hg'.
    + intros g' fr Hg'. by apply elem_of_list_singleton in Hg'.
    + destruct (Nat.ltb _ _); [|done]. eapply OS_frame; [intros; by autorewrite with gst|by autorewrite with gst|done].
  - intros s H. eapply OS_frame; [intros; by autorewrite with gst|by autorewrite with gst|done].
  - intros s H. eapply OS_frame; [intros; by autorewrite with gst|by autorewrite with gst|done].
  - intros s g H _ _. eapply OS_frame; [intros; by autorewrite with gst|by autorewrite with gst|done].
  - intros s x y z H. eapply OS_frame; [intros; by autorewrite with gst|by autorewrite with gst|done].
Qed.

Lemma steps_OS a b c l : Forall (plain_event named) l -> OS (s_st (steps cfg (init_gsys a b c) l)).
Proof using.
  intros Hl. assert (forall y, JS OS y -> JS OS (steps cfg y l)) as H.
  { induction Hl as [|e l He _ IH]; intros y Hy; [done|]. cbn. apply IH. apply (step_fine cfg OS named OS_ok); [by destruct e|by intros ->|done]. }
  apply H. split; [|by constructor]. split_and!; cbn.
  - intros g Hg. by apply elem_of_nil in Hg.
  - intros [] i o _; by rewrite lookup_empty.
  - intros g fr Hg. by apply elem_of_nil in Hg.
Qed.

Lemma sign_once a b c l g1 g2 f1 f2 : Forall (plain_event named) l ->
  let tr := t_trace (s_st (steps cfg (init_gsys a b c) l)) in
  EvSigned g1 f1 ∈ tr -> EvSigned g2 f2 ∈ tr -> statement g1 -> get_id g1 = get_id g2 -> g1 = g2.
Proof using.
  intros Hl tr H1 H2 Hs Hi. destruct (steps_OS a b c l Hl) as (O1 & O2 & O3).
  assert (statement g2) as Hs2 by (unfold statement in *; by injection Hi as _ <- _).
  apply O3 in H1, H2. destruct (O1 _ H1 Hs) as (k1 & K1 & L1). destruct (O1 _ H2 Hs2) as (k2 & K2 & L2).
  assert (k1 = k2) as ->.
  { unfold obj_kind in *. injection Hi as _ Ht _. rewrite Ht, K2 in K1. by injection K1. }
  rewrite Hi, L2 in L1. by injection L1.
Qed.
End once.
End conflict.
