(** What one event does to a gossiper, as far as versions of a statement
    are concerned. *)
From Verif Require Import Bytes Hex Json Types Crypto Verify Prog Gossiper Network SpecVerify SpecGossiper SpecNetwork SpecDetect ProgFacts GstFacts CodecFacts CryptoFacts VerifyFacts GWalk GossiperInv GossiperSeq GossiperEvidence GossiperStep GossiperSeqInv GossiperConflict NetworkFacts DetectNode.
From Coq Require Import Lia.
Open Scope string_scope.

(** ** Evidence is stored for every blacklisted entity *)
Section evidence.
Context {P : prims} (c : gconf P).

Definition BE (s : gst) : Prop := forall e, e ∈ t_black s ->
  exists k i o, (k = OCon \/ k = OFull Acc) /\ get_tbl s k !! i = Some o /\ g_p0 o = e.

Lemma BE_frame s s' : get_tbl s' OCon = get_tbl s OCon -> get_tbl s' (OFull Acc) = get_tbl s (OFull Acc) -> t_black s' = t_black s -> BE s -> BE s'.
Proof. intros E1 E2 E3 H x. rewrite E3. intros Hx. destruct (H x Hx) as (k & i & o & [-> | ->] & Ho & Hp); [exists OCon, i, o|exists (OFull Acc), i, o]; split_and!; auto; [by rewrite E1|by rewrite E2]. Qed.

Lemma BE_more s s' : (forall k i o, get_tbl s k !! i = Some o -> exists o', get_tbl s' k !! i = Some o' /\ g_p0 o' = g_p0 o) -> t_black s' = t_black s -> BE s -> BE s'.
Proof. intros E1 E2 H x. rewrite E2. intros Hx. destruct (H x Hx) as (k & i & o & Hk & Ho & Hp). destruct (E1 k i o Ho) as (o' & Ho' & Hp'). exists k, i, o'. split_and!; auto. congruence. Qed.

Lemma BE_add s k g : (k = OCon \/ k = OFull Acc) -> (forall i o, get_tbl s k !! i = Some o -> get_id o = i) -> BE s -> BE (black_add (inserted s k g) (g_p0 g)).
Proof.
  intros Hk Hid H x. destruct (black_add_fields (inserted s k g) (g_p0 g)) as (E1 & _ & E2 & _). rewrite E1, E2. unfold inserted. autorewrite with gst.
  assert (get_tbl (add_trace (set_tbl s k (<[get_id g:=g]> (get_tbl s k))) [EvStored g]) k !! get_id g = Some g) as Hg.
  { autorewrite with gst. rewrite get_tbl_set_tbl, decide_True by done. by rewrite lookup_insert. }
  intros [->%elem_of_singleton|Hx]%elem_of_union; [by exists k, (get_id g), g|].
  destruct (H x Hx) as (k' & i & o & Hk' & Ho & Hp). destruct (decide (k' = k)) as [->|Hn].
  - destruct (decide (i = get_id g)) as [->|Hi].
    + exists k, (get_id g), g. split_and!; auto. apply Hid in Ho. injection Ho as _ _ Ho. congruence.
    + exists k, i, o. split_and!; auto. autorewrite with gst. rewrite get_tbl_set_tbl, decide_True by done. by rewrite lookup_insert_ne.
  - exists k', i, o. split_and!; auto. autorewrite with gst. rewrite get_tbl_set_tbl. by rewrite decide_False.
Qed.

Definition BJ (s : gst) : Prop := BE s /\ forall k i o, get_tbl s k !! i = Some o -> get_id o = i.

Lemma ids_inserted s k g : (forall k i o, get_tbl s k !! i = Some o -> get_id o = i) -> forall k' i o, get_tbl (inserted s k g) k' !! i = Some o -> get_id o = i.
Proof. intros H k' i o. unfold inserted. autorewrite with gst. rewrite get_tbl_set_tbl. destruct (decide _) as [->|]; [|apply H]. intros [[<- <-]|[_ ?]]%lookup_insert_Some; [done|by eapply H]. Qed.

Lemma BJ_frame s s' : (forall k, get_tbl s' k = get_tbl s k) -> t_black s' = t_black s -> BJ s -> BJ s'.
Proof. intros E1 E2 [H1 H2]. split; [eapply (BE_frame s); auto|]. intros k i o. rewrite E1. apply H2. Qed.

Lemma BJ_insert s f g : BJ s -> BJ (inserted s (OInit f) g).
Proof. intros [H1 H2]. split; [|by apply ids_inserted]. eapply BE_frame; [..|exact H1]; unfold inserted; autorewrite with gst; rewrite ?get_tbl_set_tbl; done. Qed.

Lemma BJ_ok : seq_ok c BJ (λ _, True).
Proof.
  split; try done.
  - intros s l H _. eapply BJ_frame; [| |exact H]; intros; by autorewrite with gst.
  - intros s g fr H _. eapply BJ_frame; [| |exact H]; intros; by autorewrite with gst.
  - intros s g f H _ Hf _ _ _ _. by apply BJ_insert.
  - intros s g H _ _. by apply BJ_insert.
  - intros s g [H1 H2] _ _ _. split; [apply BE_add; auto; apply H2|].
    destruct (black_add_fields (inserted s OCon g) (g_p0 g)) as (-> & _). by apply ids_inserted.
  - intros s g f [H1 H2] _ _. destruct (decide _) as [->|Hf].
    + split; [apply BE_add; auto; apply H2|]. destruct (black_add_fields (inserted s (OFull Acc) g) (g_p0 g)) as (-> & _). by apply ids_inserted.
    + split; [|by apply ids_inserted]. eapply BE_frame; [..|exact H1]; unfold inserted; autorewrite with gst; rewrite ?get_tbl_set_tbl; auto.
      rewrite decide_False; [done|]. by intros [= ?].
  - intros s g f H _. eapply BJ_frame; [| |exact H]; intros; unfold read_and_store; cbn [fst]; autorewrite with gst; destruct (Nat.ltb _ _); by autorewrite with gst.
  - intros s H. eapply BJ_frame; [| |exact H]; intros; by autorewrite with gst.
  - intros s H. eapply BJ_frame; [| |exact H]; intros; by autorewrite with gst.
  - intros s g H _ _. eapply BJ_frame; [| |exact H]; intros; by autorewrite with gst.
  - intros s x y z H. eapply BJ_frame; [| |exact H]; intros; by autorewrite with gst.
Qed.

Lemma steps_BE p sec st l : Period ∉ l -> BE (s_st (steps c (init_gsys p sec st) l)).
Proof.
  intros Hl. assert (forall y, JS BJ y -> JS BJ (steps c y l)) as H.
  { induction l as [|e l IH]; intros y Hy; [done|]. apply not_elem_of_cons in Hl as [He Hl]. cbn. apply IH; [done|].
    apply (step_fine c BJ (λ _, True) BJ_ok); [by destruct e|by intros ->|done]. }
  apply H. split; [|by constructor]. split; [|intros k i o; cbn; destruct k as [[]| |[]]; cbn; by rewrite lookup_empty].
  intros x. cbn. set_solver.
Qed.
End evidence.

Section step.
Context {P : prims} (cfgs : gmap string (gconf P)) (a : gobj) (Ha : statement a) (Hsig : g_signer a <> "").
Context (c : gconf P) (Hin : exists u, cfgs !! u = Some c) (HT : 0 < cc_threshold (gc_crypto c)).
Notation cc := (gc_crypto c).
Notation e := (g_p0 a).
Notation i := (get_id a).
Notation f := (af a).
Notation harmless := (harmless cfgs a).

Definition harmless_event (ev : gevent) : Prop := match ev with Recv _ g => harmless g | Period => False | _ => True end.
Definition node_from p sec st (y : gsys) : Prop := exists l, Forall harmless_event l /\ y = steps c (init_gsys p sec st) l.

Definition JD (y : gsys) : Prop := DI cfgs a c (s_st y) /\ Forall (λ t, Etok t (s_st y)) (s_tasks y).

Lemma exec_JD p y ts : DI cfgs a c (s_st y) -> Forall (λ t, Etok t (s_st y)) ts ->
  safe (DI cfgs a c) GR Etok (λ _, True) (λ _ _, True) p (s_st y) -> JD (exec p y ts).
Proof using Ha.
  intros HI HT' Hs. pose proof (walk_harmless cfgs a Ha c) as W.
  pose proof (safe_run (DI cfgs a c) GR Etok (λ _, True) (PreOrder0:=w_pre _ _ _ _ _ _ _ W) (w_tok _ _ _ _ _ _ _ W) _ p (s_st y) HI Hs) as HR.
  unfold exec. destruct (run p (s_st y)) as [[s' new] [x|w]]; destruct HR as (H1 & H2 & H3 & H4);
    (split; cbn; [done|]); (apply Forall_app; split; [|done]); (eapply Forall_impl; [exact HT'|]); intros t Ht; cbn in *; by eapply (w_tok _ _ _ _ _ _ _ W).
Qed.

Notation request := "/gossip/new_payload_request".
Lemma note_DI s url n : DI cfgs a c s -> keeps (DI cfgs a c) GR s (add_trace s [ToGossiper url request (MNote n)]).
Proof using.
  intros HI. apply DI_frame; auto; try (intros; by autorewrite with gst).
  - apply GI_trace1; [done|done|apply HI].
  - intros u ep' g. autorewrite with gst. rewrite elem_of_app, elem_of_list_singleton. intros [Hg|[= -> -> ->]]; [by left|right]. apply note_path.
Qed.

(** The notification handler, with the path it posts to. *)
Lemma s_note (I : gst -> Prop) (R : gst -> gst -> Prop) tok cok n s :
  (forall s url n, I s -> keeps I R s (add_trace s [ToGossiper url request (MNote n)])) -> PreOrder R ->
  safe I R tok cok (λ _ _, True) (notification_handler c n) s.
Proof using.
  intros Hn HR. unfold notification_handler. intros s1 H1 I1. split_and!; [done|reflexivity|]. cbn.
  match goal with |- context [pwhen ?b _] => destruct b end; [|done].
  intros s2 H2 I2. destruct (Hn s2 (n_sender n) (mknote (cc_self cc) (n_period n) (n_type n) (n_entity n) (n_hash n)) I2) as [K1 K2]. by split_and!.
Qed.

Lemma reply_DI s0 s j o url : DI cfgs a c s0 -> t_payload s0 !! j = Some o -> GR s0 s -> DI cfgs a c s ->
  keeps (DI cfgs a c) GR s (add_trace s [ToGossiper url "/gossip/rev_init" (MObj o)]).
Proof using.
  intros I0 Ho HR HI. apply DI_frame; auto; try (intros; by autorewrite with gst).
  - apply GI_trace1; [done| |apply HI]. cbn. right. destruct I0 as ((_ & H2 & _) & _). apply H2 in Ho as (Hv & _ & Ht). split; [done|]. right. by left.
  - intros u ep' g. autorewrite with gst. rewrite elem_of_app, elem_of_list_singleton. intros [Hg|[= _ -> ->]]; [by left|right].
    destruct I0 as (_ & I2 & _). cbn. by eapply I2.
Qed.

Lemma reconstructed s g : obj_kind g = KFrag Rev -> obj_kind (reconstruct_payload s g) = KFrag Rev.
Proof using. destruct g as [? ? ? ? ? ? ? ? ? ? ? ?]. intros H. exact H. Qed.

Lemma step_JD y ev : harmless_event ev -> JD y -> JD (step c y ev).
Proof using Ha.
  intros He (HI & HK). pose proof (walk_harmless cfgs a Ha c) as W. destruct ev as [n g|n|n|j|p sec st|]; cbn [step harmless_event] in *; [..|done].
  - apply exec_JD; auto. eapply s_object; [exact W|done|]. intros s1 I1 _ Hk. apply harmless_other; auto; by rewrite reconstructed.
  - apply exec_JD; auto. apply s_note; [|apply (w_pre _ _ _ _ _ _ _ W)]. intros. by apply note_DI.
  - apply exec_JD; auto. eapply s_request; [exact W|]. intros s0 s j o url A1 A2 A3 A4. by apply (reply_DI s0 s j o url).
  - destruct (nth_error (s_tasks y) j) as [t|] eqn:E; [|done]. apply nth_split in E. rewrite E in HK.
    apply Forall_app in HK as [T1 T2]. apply Forall_cons in T2 as [T2 T3].
    apply exec_JD; auto; [by apply Forall_app|]. by eapply s_start; [exact W|].
  - split; cbn.
    + apply (DI_frame cfgs a c (s_st y)); auto; try (intros; by autorewrite with gst).
      * apply GI_frame; [..|apply HI]; intros; by autorewrite with gst.
      * intros u ep g. autorewrite with gst. by left.
    + eapply Forall_impl; [exact HK|]. intros [g] [[H1 H2] H3]. split; [|done]. split; [|done]. unfold GD in *. by autorewrite with gst.
Qed.

Lemma node_facts p sec st y : node_from p sec st y -> JD y /\ CB (s_st y) /\ BE (s_st y).
Proof using Ha.
  intros (l & Hl & ->). split_and!.
  - assert (forall y, JD y -> JD (steps c y l)) as H.
    { clear -Hl Ha. induction Hl as [|ev l He _ IH]; intros y Hy; [done|]. cbn. by apply IH, step_JD. }
    apply H. split; [|by constructor]. split_and!; cbn.
    + apply GI_init.
    + intros j o. by rewrite lookup_empty.
    + intros k j o. destruct k as [[]| |[]]; cbn; by rewrite lookup_empty.
    + intros u ep g Hg. by apply elem_of_nil in Hg.
    + intros j x. by rewrite lookup_empty.
  - apply steps_CB.
  - apply steps_BE. intros Hp. rewrite Forall_forall in Hl. by apply Hl in Hp.
Qed.

Lemma node_step p sec st y ev : node_from p sec st y -> harmless_event ev -> node_from p sec st (step c y ev).
Proof using.
  intros (l & Hl & ->) He. exists (l ++ [ev])%list. split; [apply Forall_app; split; [done|by constructor]|]. by rewrite steps_app.
Qed.

(** ** Outcomes *)
Definition seen (g : gobj) (s : gst) : Prop :=
  e ∈ t_black s \/ exists x, get_tbl s (OInit f) !! i = Some x /\ g_s0 x = g_s0 g /\ g_s1 x = g_s1 g.
Definition proof_ok (con : gobj) : Prop := obj_kind con = KObj OCon /\ g_p0 con = e /\ verify cc con = Accept.
Definition object_post (v : string) (g : gobj) : post := mkpost v (endpoint_of (obj_kind g)) (MObj g).

Inductive verdict_of (s s' : gst) (out : list post) : Prop :=
| res_same : get_tbl s' (OInit f) !! i = get_tbl s (OInit f) !! i -> (e ∈ t_black s' <-> e ∈ t_black s) -> verdict_of s s' out
| res_store g : get_tbl s (OInit f) !! i = None -> get_tbl s' (OInit f) !! i = Some g -> (e ∈ t_black s' <-> e ∈ t_black s) ->
    (forall v, v ∈ gc_neighbours c -> object_post v g ∈ out) -> verdict_of s s' out
| res_con con : get_tbl s' (OInit f) !! i = get_tbl s (OInit f) !! i -> e ∈ t_black s' -> proof_ok con ->
    (forall v, v ∈ gc_neighbours c -> object_post v con ∈ out) -> verdict_of s s' out.

Lemma sends_posts g suf v : (outgoing c g = (endpoint_of (obj_kind g), MObj g)) -> v ∈ gc_neighbours c -> object_post v g ∈ posts (sends c g ++ suf).
Proof using.
  intros Ho Hv. unfold posts. rewrite elem_of_list_omap. exists (ToGossiper v (outgoing c g).1 (outgoing c g).2).
  split; [apply elem_of_app; left; apply elem_of_list_fmap; by exists v|]. by rewrite Ho.
Qed.

Lemma posts_app l k : posts (l ++ k) = (posts l ++ posts k)%list.
Proof using. unfold posts. apply omap_app. Qed.

Lemma outgoing_plain g : harmless g -> get_id g = i -> outgoing c g = (endpoint_of (obj_kind g), MObj g).
Proof using Ha Hin.
  intros Hg Hi. unfold outgoing. pose proof (same_kind a Ha g Hi) as Hk. rewrite Hk. destruct f eqn:Ef; try done.
  assert (oversized c g = false) as ->; [|done]. unfold oversized. apply Z.ltb_ge. destruct Hin as [u Hu].
  destruct (Hg ltac:(by injection Hi)) as [_ Hg2]. eapply (proj2 (Hg2 Hi)); [|exact Hu]. apply obj_kind_obj in Hk. done.
Qed.

(** A conflict proof is handled. *)
Lemma con_result n s g : CB s -> obj_kind g = KObj OCon -> (verify cc g = Accept -> g_p0 g = e) ->
  exists s' suf r, run (handle_n c (S n) g) s = (s', [], r) /\ t_trace s' = (t_trace s ++ suf)%list /\ verdict_of s s' (posts suf) /\
    (verify cc g = Accept -> GI c s -> e ∈ t_black s').
Proof using All.
  intros HC Hk Hp. rewrite (handle_conflict c n) by done.
  assert (forall r : Prog.result unit, exists s' suf r', (s, [] : list gtask, r) = (s', [], r') /\ t_trace s' = (t_trace s ++ suf)%list /\ verdict_of s s' (posts suf)) as Hsame.
  { intros r. exists s, [], r. rewrite app_nil_r. split_and!; auto. by constructor 1. }
  assert (forall r : Prog.result unit, (verify cc g = Accept -> GI c s -> e ∈ t_black s) -> exists s' suf r', (s, [] : list gtask, r) = (s', [], r') /\ t_trace s' = (t_trace s ++ suf)%list /\ verdict_of s s' (posts suf) /\
    (verify cc g = Accept -> GI c s -> e ∈ t_black s')) as Hsame'.
  { intros r Hr. exists s, [], r. rewrite app_nil_r. split_and!; auto. by constructor 1. }
  assert (is_Some (get_tbl s OCon !! get_id g) -> verify cc g = Accept -> GI c s -> e ∈ t_black s) as Hknown.
  { intros [o Ho] Hv (H1 & _). rewrite <- Hp by done. destruct (H1 _ _ _ Ho) as (_ & Hi & _). injection Hi as _ _ Hi. rewrite <- Hi. by eapply HC. }
  destruct (is_duplicate s g) eqn:Ed.
  { apply Hsame'. apply Hknown. unfold is_duplicate in Ed. rewrite Hk in Ed. destruct (get_tbl s OCon !! get_id g); [by eexists|done]. }
  destruct (in_blacklist s (g_p0 g)) eqn:Eb.
  { apply Hsame'. intros Hv _. rewrite <- Hp by done. by apply bool_decide_eq_true in Eb. }
  destruct (get_tbl s OCon !! get_id g) as [o|] eqn:Eo; [apply Hsame', Hknown; by eexists|].
  destruct (verify cc g) eqn:Hv; [|by apply Hsame'|by apply Hsame'].
  specialize (Hp eq_refl). 
  destruct (conv_i_fields c (black_add (inserted s OCon g) (g_p0 g))) as (E1 & _ & E2 & E3 & _).
  destruct (black_add_fields (inserted s OCon g) (g_p0 g)) as (F1 & _ & F2 & F3 & _).
  assert (e ∈ t_black (published c (conv_i c (black_add (inserted s OCon g) (g_p0 g))) g)) as Hin'.
  { unfold published. autorewrite with gst. rewrite E2, F2, Hp. set_solver. }
  do 2 eexists. exists (Done tt). split; [reflexivity|]. split; [unfold published; autorewrite with gst; rewrite E3, F3; unfold inserted; autorewrite with gst; by rewrite <- !app_assoc|].
  split; [|done]. econstructor 3 with (con := g).
  - unfold published. autorewrite with gst. rewrite E1, F1. unfold inserted. autorewrite with gst. by rewrite get_tbl_set_tbl.
  - done.
  - done.
  - intros v Hv'. rewrite posts_app. apply elem_of_app. right. apply sends_posts; [|done]. unfold outgoing. by rewrite Hk.
Qed.

(** A statement about the entity is handled. *)
Lemma stmt_result s g f' : GI c s -> CB s -> (forall x, get_tbl s (OInit f) !! i = Some x -> g_signer x = g_signer a) ->
  harmless g -> g_p0 g = e -> f' <> Acc -> obj_kind g = KObj (OInit f') ->
  exists s' suf ts r, run (handle c g) s = (s', ts, r) /\ t_trace s' = (t_trace s ++ suf)%list /\ verdict_of s s' (posts suf) /\
    (get_id g = i -> verify cc g = Accept -> seen g s').
Proof using All.
  intros HI HC Hsg Hg Hp Hf Hk. unfold handle. rewrite (handle_stmt c 2 f' g s) by done.
  assert (forall (r : Prog.result unit), (get_id g = i -> verify cc g = Accept -> seen g s) -> exists s' suf ts r', (s, [] : list gtask, r) = (s', ts, r') /\ t_trace s' = (t_trace s ++ suf)%list /\ verdict_of s s' (posts suf) /\
    (get_id g = i -> verify cc g = Accept -> seen g s')) as Hsame.
  { intros r Hr. exists s, [], [], r. rewrite app_nil_r. split_and!; auto. by constructor 1. }
  destruct (is_duplicate s g) eqn:Ed.
  { apply Hsame. intros Hi _. right. unfold is_duplicate in Ed. rewrite Hk in Ed. pose proof (same_kind a Ha g Hi) as Hk'. rewrite Hk in Hk'. injection Hk' as ->.
    rewrite Hi in Ed. destruct (get_tbl s (OInit f) !! i) as [x|] eqn:Ex; [|done]. exists x. split; [done|].
    unfold same_sig in Ed. apply andb_true_iff in Ed as [E1 E2]. apply bool_decide_eq_true in E1. apply bool_decide_eq_true in E2. done. }
  destruct (in_blacklist s (g_p0 g)) eqn:Eb.
  { apply Hsame. intros _ _. left. rewrite <- Hp. by apply bool_decide_eq_true in Eb. }
  destruct (is_malicious s g) eqn:Em.
  - set (o := get_object s (get_id g) (OInit f')). set (con := generate_con _ o g).
    assert (verify cc con = Accept -> g_p0 con = e) as Hcp.
    { intros Hv. cbn. destruct (get_object_cases c s (get_id g) (OInit f') HI) as [E|(o' & E & Ho & Hv' & Hi & Ht)].
      - exfalso. revert Hv. unfold con, o. rewrite E. apply con_zero_rejected.
      - unfold o. rewrite E. injection Hi as _ _ Hi. congruence. }
    destruct (con_result 1 s con HC (con_kind _ _ _) Hcp) as (s' & suf & r & Er & Et & Hr & Hb).
    exists s', suf, [], r. split_and!; auto. intros Hi Hv. left. apply Hb; [|done].
    pose proof (same_kind a Ha g Hi) as Hk'. rewrite Hk in Hk'. injection Hk' as ->.
    destruct (get_object_cases c s (get_id g) (OInit f) HI) as [E|(o' & E & Ho & Hv' & Hi' & Ht)].
    + exfalso. unfold is_malicious in Em. rewrite Hk in Em. destruct (Hg Hp) as [_ Hg2]. apply Hg2 in Hi as [Hi _].
      destruct (af a); try done; rewrite E in Em; apply andb_true_iff in Em as [Em _]; apply bool_decide_eq_true in Em; cbn in Em; congruence.
    + unfold con, o. rewrite E. apply con_accepted with (f := f); auto. by apply obj_kind_obj.
  - destruct (verify cc g) eqn:Hv; [|by apply Hsame|by apply Hsame].
    destruct (conv_i_fields c (inserted s (OInit f') g)) as (E1 & _ & E2 & E3 & _).
    do 2 eexists. exists [SignLater g], (Done tt). split; [reflexivity|]. 
    split; [unfold published; autorewrite with gst; rewrite E3; unfold inserted; autorewrite with gst; by rewrite <- !app_assoc|].
    assert (e ∈ t_black (published c (conv_i c (inserted s (OInit f') g)) g) <-> e ∈ t_black s) as Hb.
    { unfold published. autorewrite with gst. rewrite E2. unfold inserted. by autorewrite with gst. }
    assert (get_tbl (published c (conv_i c (inserted s (OInit f') g)) g) (OInit f) = if decide (f' = f) then <[get_id g := g]> (get_tbl s (OInit f)) else get_tbl s (OInit f)) as Ht.
    { unfold published. autorewrite with gst. rewrite E1. unfold inserted. autorewrite with gst. rewrite get_tbl_set_tbl.
      destruct (decide (f' = f)) as [->|Hn]; [by rewrite decide_True|rewrite decide_False; [done|]]. by intros [= ?]. }
    destruct (decide (get_id g = i)) as [Hi|Hi].
    + pose proof (same_kind a Ha g Hi) as Hk'. rewrite Hk in Hk'. injection Hk' as ->. rewrite decide_True in Ht by done.
      split; [|intros _ _; right; exists g; split; [by rewrite Ht, <- Hi, lookup_insert|done]].
      assert (get_tbl s (OInit f) !! i = None) as Hno.
      { destruct (get_tbl s (OInit f) !! i) as [x|] eqn:Ex; [|done]. exfalso. pose proof (Hsg x eq_refl) as Hx.
        destruct (Hg Hp) as [_ Hg2]. destruct (Hg2 Hi) as [Hgs _].
        unfold is_duplicate in Ed. rewrite Hk, Hi, Ex in Ed.
        assert (same_sig g x = false) as Ed' by (revert Ed; unfold same_sig; repeat case_bool_decide; try done; congruence).
        unfold is_malicious, get_object, obj_at in Em. rewrite Hk, Hi in Em.
        destruct (af a) eqn:Ef; [..|by apply (proj1 (af_kind a Ha))]; rewrite Ex, Ed', bool_decide_eq_true_2 in Em by congruence; done. }
      econstructor 2; [done|by rewrite Ht, <- Hi, lookup_insert|done|].
      intros v Hv'. rewrite posts_app. apply elem_of_app. right. apply sends_posts; [|done]. by apply outgoing_plain.
    + split; [|done]. constructor 1; [|done]. rewrite Ht. destruct (decide (f' = f)); [by rewrite lookup_insert_ne|done].
Qed.

Lemma suffix_result y y' suf : t_trace (s_st y') = (t_trace (s_st y) ++ suf)%list -> verdict_of (s_st y) (s_st y') (posts suf) ->
  verdict_of (s_st y) (s_st y') (out_of y y').
Proof using. intros Et Hr. by rewrite (out_suffix y y' suf). Qed.

Lemma frame_result (y : gsys) (p : gprog unit) ts : JD y -> safe (FI cfgs a c (s_st y)) GR Etok (λ _, True) (λ _ _, True) p (s_st y) ->
  verdict_of (s_st y) (s_st (exec p y ts)) (out_of y (exec p y ts)).
Proof using Ha.
  intros [HI _] Hs. pose proof (walk_frame cfgs a Ha c (s_st y)) as W.
  assert (FI cfgs a c (s_st y) (s_st y)) as HF by (by split_and!).
  pose proof (safe_run (FI cfgs a c (s_st y)) GR Etok (λ _, True) (PreOrder0:=w_pre _ _ _ _ _ _ _ W) (w_tok _ _ _ _ _ _ _ W) _ p (s_st y) HF Hs) as HR.
  unfold exec. destruct (run p (s_st y)) as [[s' new] [x|w]]; destruct HR as ((_ & H1 & H2) & _); (constructor 1; [by apply H1|done]).
Qed.

Lemma step_result y ev : JD y -> CB (s_st y) -> harmless_event ev ->
  let y' := step c y ev in verdict_of (s_st y) (s_st y') (out_of y y') /\
  match ev with Recv _ g => verify cc g = Accept -> (get_id g = i -> seen g (s_st y')) /\ (obj_kind g = KObj OCon -> g_p0 g = e -> e ∈ t_black (s_st y')) | _ => True end.
Proof using All.
  intros HJ HC Hev. pose proof HJ as [HI HK]. cbn zeta. pose proof (walk_frame cfgs a Ha c (s_st y)) as W.
  assert (forall s' x, FI cfgs a c (s_st y) s' -> keeps (DI cfgs a c) GR s' (add_trace s' [x]) -> keeps (FI cfgs a c (s_st y)) GR s' (add_trace s' [x])) as Htr.
  { intros s' x H1 H2. apply FI_frame; auto; intros; by autorewrite with gst. }
  destruct ev as [n g|n|n|j|p sec st|]; cbn [step harmless_event] in *; [..|done].
  - destruct (decide (g_p0 g = e)) as [Hp|Hp].
    2: { split; [|intros _; split; [intros Hi; exfalso; apply Hp; by injection Hi|done]].
         apply frame_result; [done|]. eapply s_object; [exact W|split; [done|by intros [? _]]|]. intros s1 I1 _ Hk.
         split; [apply harmless_other; auto; by rewrite reconstructed|]. intros [_ H]. by rewrite reconstructed in H. }
    pose proof (harmless_plain cfgs a g Hev Hp) as Hpl.
    assert ((exists f', f' <> Acc /\ obj_kind g = KObj (OInit f')) \/ obj_kind g = KObj OCon \/ (~ core a c g /\ get_id g <> i /\ obj_kind g <> KObj OCon)) as Hcase.
    { destruct (obj_kind g) as [[f'| |f']|f'|] eqn:Ek; auto; [left; exists f'; split; [by intros ->|done]|..];
        right; right; (split_and!; [intros [_ H]; by rewrite Ek in H|intros Hi; apply (same_kind a Ha) in Hi; congruence|done]). }
    destruct Hcase as [Hst|[Hcon|(H1 & H2 & H3)]].
    3: { split; [|done]. apply frame_result; [done|]. eapply s_object; [exact W|done|]. intros s1 I1 _ Hk.
         split; [apply harmless_other; auto; by rewrite reconstructed|]. intros [_ H]. by rewrite reconstructed in H. }
    + destruct Hst as (f' & Hf & Hk). set (s := s_st y) in *.
      assert (forall s1, GI c s1 -> get_tbl s1 = get_tbl s -> t_black s1 = t_black s -> t_trace s1 = t_trace s ->
        exists s' suf ts r, run (handle c g) s1 = (s', ts, r) /\ t_trace s' = (t_trace s ++ suf)%list /\ verdict_of s s' (posts suf) /\
          (get_id g = i -> verify cc g = Accept -> seen g s')) as Hh.
      { intros s1 G1 E1 E2 E3. destruct (stmt_result s1 g f') as (s' & suf & ts & r & A1 & A2 & A3 & A4); auto.
        - intros j o. rewrite E1, E2. apply HC.
        - intros x. rewrite E1. intros Hx. destruct HI as (G & _ & I3 & _). destruct (proj1 G _ _ _ Hx) as (_ & Hid & _).
          apply (I3 _ _ _ Hx); [by injection Hid|done].
        - exists s', suf, ts, r. rewrite E3 in A2. split_and!; auto.
          destruct A3 as [B1 B2|g' B1 B2 B3 B4|con B1 B2 B3 B4].
          + constructor 1; [by rewrite B1, E1|by rewrite B2, E2].
          + econstructor 2; eauto; [by rewrite <- E1|by rewrite B3, E2].
          + econstructor 3; eauto. by rewrite B1, E1. }
      assert (exists s' suf ts r, run (object_handler c n g) s = (s', ts, r) /\ t_trace s' = (t_trace s ++ suf)%list /\ verdict_of s s' (posts suf) /\
          (get_id g = i -> verify cc g = Accept -> seen g s')) as (s' & suf & ts & r & Er & Et & Hr & Hs).
      { unfold object_handler. rewrite Hk, (bool_decide_eq_false_2 (KObj (OInit f') = KFrag Rev)) by done. rewrite andb_false_r.
        destruct (Z.ltb (gc_opt_threshold c) n && bool_decide (KObj (OInit f') = KObj (OInit Rev))) eqn:Esave; cbn [pwhen].
        - unfold save_payload. destruct (verify cc g) eqn:Hv.
          + cbn [pbind pmodify run].
            destruct (Hh (set_payload s (<[get_id g:=g]> (t_payload s)))) as (s' & suf & ts & r & A1 & A2 & A3 & A4).
            * apply andb_true_iff in Esave as [_ Er]. apply bool_decide_eq_true in Er. injection Er as ->.
              pose proof (walk_GI c) as WG. apply (w_payload _ _ _ _ _ _ _ WG s g (proj1 HI)); done.
            * destruct s; done.
            * by autorewrite with gst.
            * by autorewrite with gst.
            * exists s', suf, ts, r. rewrite A1. done.
          + cbn [pbind pskip run]. destruct (Hh s) as (s' & suf & ts & r & A1 & A2 & A3 & A4); auto; [apply HI|]. by exists s', suf, ts, r.
          + cbn [pbind run]. exists s, [], [], (Crashed NilDeref). rewrite app_nil_r. split_and!; auto; [by constructor 1|done].
        - cbn [pbind pskip run]. destruct (Hh s) as (s' & suf & ts & r & A1 & A2 & A3 & A4); auto; [apply HI|]. by exists s', suf, ts, r. }
      assert (s_st (exec (object_handler c n g) y (s_tasks y)) = s') as Es by (unfold exec; fold s; by rewrite Er).
      split; [apply (suffix_result _ _ suf); by rewrite Es|]. rewrite Es. intros Hv. split; [by intros; apply Hs|]. intros Hc. congruence.
    + set (s := s_st y) in *.
      destruct (con_result 2 s g HC Hcon ltac:(done)) as (s' & suf & r & Er & Et & Hr & Hb).
      assert (s_st (exec (object_handler c n g) y (s_tasks y)) = s') as Es.
      { unfold exec, object_handler. fold s. rewrite Hcon. rewrite (bool_decide_eq_false_2 (KObj OCon = KFrag Rev)), (bool_decide_eq_false_2 (KObj OCon = KObj (OInit Rev))) by done.
        rewrite !andb_false_r. cbn [pwhen pbind pskip run]. unfold handle. by rewrite Er. }
      split; [apply (suffix_result _ _ suf); by rewrite Es|]. rewrite Es. intros Hv. split.
      * intros Hi. apply (same_kind a Ha) in Hi. congruence.
      * intros _ _. apply Hb; [done|apply HI].
  - split; [|done]. apply frame_result; [done|]. apply s_note; [|apply (w_pre _ _ _ _ _ _ _ W)]. intros s1 url nn I1. apply Htr; [done|]. apply note_DI. apply I1.
  - split; [|done]. apply frame_result; [done|]. eapply s_request; [exact W|]. intros s0 s1 j o url A1 A2 A3 A4. apply Htr; [done|]. apply (reply_DI s0 s1 j o url); auto; [apply A1|apply A4].
  - split; [|done]. destruct (nth_error (s_tasks y) j) as [t|] eqn:E; [|by constructor 1].
    apply frame_result; [done|]. eapply s_start; [exact W|]. rewrite Forall_forall in HK. apply HK. apply elem_of_list_In. by eapply nth_error_In.
  - split; [|done]. constructor 1; cbn [s_st]; by autorewrite with gst.
Qed.
End step.
