(** Handling an object touches only the entities it is about. *)
From Verif Require Import Bytes Hex Json Types Crypto Verify Prog Gossiper SpecVerify SpecGossiper ProgFacts GstFacts CodecFacts CryptoFacts VerifyFacts GWalk GossiperInv GossiperSeq GossiperEvidence.
From Coq Require Import Lia.
Open Scope string_scope.

Section local.
Context {P : prims} (cfg : gconf P).
Notation cc := (gc_crypto cfg).
Notation T := (cc_threshold cc).
Context (E : string -> Prop) (s0 : gst).

Definition LI (s : gst) : Prop := GI cfg s /\ agree_outside E s0 s /\ sends_about E s0 s.
Definition LH (g : gobj) (s : gst) : Prop := E (g_p0 g) \/ (obj_kind g = KObj OCon /\ verify cc g <> Accept).
Definition Ltok (t : gtask) (s : gst) : Prop := Gtok t s /\ match t with SignLater g => E (g_p0 g) end.

Lemma LH_stored g s k : LH g s -> verify cc g = Accept -> obj_kind g = KObj k -> E (g_p0 g).
Proof. intros [H|[_ H]] Hv Hk; done. Qed.
Lemma LH_frag g s f : LH g s -> obj_kind g = KFrag f -> E (g_p0 g).
Proof. intros [H|[H _]] Hk; [done|congruence]. Qed.
Lemma LH_full g s f : LH g s -> obj_kind g = KObj (OFull f) -> E (g_p0 g).
Proof. intros [H|[H _]] Hk; [done|congruence]. Qed.

(** Updates that touch neither tables nor trace. *)
Lemma LI_frame s s' : LI s -> GI cfg s' /\ GR s s' ->
  (forall k, get_tbl s' k = get_tbl s k) -> (forall f, get_frags s' f = get_frags s f) ->
  t_payload s' = t_payload s -> t_black s' = t_black s -> t_trace s' = t_trace s -> keeps LI GR s s'.
Proof.
  intros (I1 & (A1 & A2 & A3 & A4) & l & Hl & Hs) [H1 H2] E1 E2 E3 E4 E5. split; [|done]. split_and!; auto.
  - split_and!.
    + intros k i. rewrite E1. apply A1.
    + intros f i. rewrite E2. apply A2.
    + intros i. rewrite E3. apply A3.
    + intros x. rewrite E4. apply A4.
  - exists l. by rewrite E5.
Qed.

Lemma LI_trace s l : LI s -> GI cfg (add_trace s l) /\ GR s (add_trace s l) ->
  (forall ev, ev ∈ l -> is_send ev = true -> E (about ev)) -> keeps LI GR s (add_trace s l).
Proof.
  intros (I1 & (A1 & A2 & A3 & A4) & l0 & Hl & Hs) [H1 H2] Hev. split; [|done]. split_and!; auto.
  - split_and!; intros; autorewrite with gst; auto.
  - exists (l0 ++ l)%list. autorewrite with gst. rewrite Hl, <- app_assoc. split; [done|].
    intros ev Hin. apply elem_of_app in Hin as [Hin|Hin]; auto.
Qed.

Lemma LI_inserted s g k : LI s -> keeps (GI cfg) GR s (inserted s k g) -> E (g_p0 g) -> keeps LI GR s (inserted s k g).
Proof.
  intros (I1 & (A1 & A2 & A3 & A4) & l0 & Hl & Hs) [H1 H2] He. split; [|done]. unfold inserted in *. split_and!; auto.
  - split_and!; intros; autorewrite with gst; auto. rewrite get_tbl_set_tbl. destruct (decide _) as [<-|]; [|auto].
    rewrite lookup_insert_ne; [auto|]. intros <-. done.
  - exists (l0 ++ [EvStored g])%list. autorewrite with gst. rewrite Hl, <- app_assoc. split; [done|].
    intros ev Hin. apply elem_of_app in Hin as [Hin|Hin]; auto. apply elem_of_list_singleton in Hin as ->. done.
Qed.

Lemma sends_about_E g : (exists k, obj_kind g = k) -> E (g_p0 g) -> forall ev, ev ∈ sends cfg g -> is_send ev = true -> E (about ev).
Proof.
  intros _ He ev Hin _. unfold sends in Hin. apply elem_of_list_fmap in Hin as (url & -> & _).
  unfold outgoing. destruct (obj_kind g) as [[[]| |[]]|[]|]; cbn; auto; destruct (oversized cfg g); cbn; auto. by destruct g.
Qed.

Lemma walk_local : walk_ok cfg LI GR Ltok (λ _, True) LH GD.
Proof.
  pose proof (walk_GI cfg) as W. split.
  - apply (w_pre _ _ _ _ _ _ _ W).
  - intros t s s' [H1 H2] HR. split; [|done]. by eapply (w_tok _ _ _ _ _ _ _ W).
  - done.
  - apply (w_D _ _ _ _ _ _ _ W).
  - intros s g k Hk HI HH Hv Ho Hd. destruct (w_insert _ _ _ _ _ _ _ W s g k) as [A1 A2]; auto; [apply HI|].
    split; [|done]. apply LI_inserted; auto. by eapply LH_stored.
  - intros s g f HI HH Hv Ho. destruct (w_full _ _ _ _ _ _ _ W s g f) as [A1 A2]; auto; [apply HI|].
    split; [|done]. apply LI_inserted; auto. by eapply LH_stored.
  - intros s g HI HH HD Hv Hk. destruct (w_black _ _ _ _ _ _ _ W s g) as [A1 A2]; auto; [apply HI|].
    split; [|done]. destruct HI as (I1 & (B1 & B2 & B3 & B4) & l0 & Hl & Hs).
    assert (E (g_p0 g)) as He by (destruct Hk; by eapply LH_stored). split_and!; auto.
    + split_and!; intros; autorewrite with gst; auto. rewrite elem_of_union, elem_of_singleton, <- B4 by done. naive_solver.
    + exists l0. by autorewrite with gst.
  - intros s HI. apply (LI_frame s); auto; [by apply (w_conv _ _ _ _ _ _ _ W), HI|..]; intros; by autorewrite with gst.
  - intros s HI. apply (LI_frame s); auto; [by apply (w_conv_init _ _ _ _ _ _ _ W), HI|..]; intros; by autorewrite with gst.
  - intros s g HI HH Hv Hk. destruct (w_payload _ _ _ _ _ _ _ W s g) as [A1 A2]; auto; [apply HI|].
    split; [|done]. destruct HI as (I1 & (B1 & B2 & B3 & B4) & l0 & Hl & Hs).
    assert (E (g_p0 g)) as He by (by eapply LH_stored). split_and!; auto.
    + split_and!; intros; autorewrite with gst; auto. rewrite lookup_insert_ne; [auto|]. intros <-. done.
    + exists l0. by autorewrite with gst.
  - intros s g f HI HH Hk. destruct (w_reads _ _ _ _ _ _ _ W s g f) as [A1 A2]; auto; [apply HI|].
    split; [|done]. destruct HI as (I1 & (B1 & B2 & B3 & B4) & l0 & Hl & Hs).
    pose proof (LH_frag _ _ _ HH Hk) as He. unfold read_and_store in *. cbn [fst] in *. split_and!; auto.
    + split_and!; intros; autorewrite with gst; destruct (Nat.ltb _ _); autorewrite with gst; auto.
      rewrite get_frags_set_frags. destruct (decide _) as [<-|]; [|auto]. rewrite lookup_insert_ne; [auto|]. intros <-. done.
    + exists (l0 ++ [EvBefore (get_id g) (length (get_object_list s (get_id g) f))])%list. autorewrite with gst.
      split. { destruct (Nat.ltb _ _); autorewrite with gst; rewrite Hl, <- app_assoc; done. }
      intros ev Hin. apply elem_of_app in Hin as [Hin|Hin]; auto. apply elem_of_list_singleton in Hin as ->. done.
  - intros s g k HI HH HD Hv Ho Hk. destruct (w_send _ _ _ _ _ _ _ W s g k) as [A1 A2]; auto; [apply HI|].
    pose proof (LH_stored _ _ _ HH Hv Ho) as He. split; apply LI_trace; auto.
    + intros ev. apply sends_about_E; eauto.
    + intros ev Hin _. apply elem_of_list_singleton in Hin as ->. done.
  - intros s g f HI HH Hk. apply LI_trace; auto; [by eapply (w_send_frag _ _ _ _ _ _ _ W); [apply HI|..]|].
    intros ev. apply sends_about_E; eauto. by eapply LH_frag.
  - intros s g f HI HH Hk. apply LI_trace; auto; [by eapply (w_send_full _ _ _ _ _ _ _ W); [apply HI|..]|].
    intros ev Hin _. apply elem_of_list_singleton in Hin as ->. cbn. by eapply LH_full.
  - intros s g f HI HH HD Hv Hk Hf. split; [|by eapply LH_stored]. eapply (w_later _ _ _ _ _ _ _ W); eauto. apply HI.
  - intros s1 s g sf [Ht He] I0 Hb HR HI Hs. cbn zeta.
    destruct (w_sign_timer _ _ _ _ _ _ _ W s1 s g sf) as [A1 A2]; auto; [apply I0|apply HI|].
    split; [apply LI_trace; auto|].
    + intros ev Hin. apply elem_of_list_singleton in Hin as ->. done.
    + left. by destruct g.
  - intros s1 s g sf HH HD Hv Hk I0 Hb HR HI Hs. cbn zeta.
    destruct (w_sign_acc _ _ _ _ _ _ _ W s1 s g sf) as [A1 A2]; auto; [apply I0|apply HI|].
    split; [apply LI_trace; auto|].
    + intros ev Hin. apply elem_of_list_singleton in Hin as ->. done.
    + left. pose proof (LH_stored _ _ _ HH Hv Hk). by destruct g.
  - intros s1 s g f Hf Hk I0 HH Hm HR HI now.
    destruct (get_object_cases cfg s (get_id g) (OInit f) (proj1 HI)) as [Eo|(o & Eo & Ho & Hv & Hi & Ht)]; rewrite Eo in *.
    + right. split; [done|]. apply con_zero_rejected.
    + left. cbn. injection Hi as _ _ Hi. rewrite Hi. destruct HH as [HH|[HH _]]; [done|congruence].
  - intros s1 s s' g f l g0 ts Hk I0 HH HT HR HI Hl Ha Hh HR' HI' period stamp Hp. cbn zeta.
    destruct (w_fullgen _ _ _ _ _ _ _ W s1 s s' g f l g0 ts) with (period := period) (stamp := stamp) as [A1 A2]; auto; [apply I0|apply HI|apply HI'|].
    split; [apply LI_trace; auto|].
    + intros ev Hin. apply elem_of_list_singleton in Hin as ->. done.
    + left. cbn. destruct HI as ((_ & _ & H3 & _) & _).
      subst l. unfold get_object_list, frags_at in Hh. destruct (get_frags s f !! get_id g) as [l|] eqn:El; [|done].
      destruct l as [|x l]; [done|]. injection Hh as ->.
      destruct (proj2 (H3 _ _ _ El) g0) as [Hi _]; [by left|]. injection Hi as _ _ ->. by eapply LH_frag.
  - done.
  - done.
  - done.
Qed.
End local.

Section local2.
Context {P : prims} (cfg : gconf P).
Notation cc := (gc_crypto cfg).

Lemma LI_start E s : GI cfg s -> LI cfg E s s.
Proof. intros HI. split_and!; auto; [by split_and!|]. exists []. rewrite app_nil_r. split; [done|]. intros ev Hin. by apply elem_of_nil in Hin. Qed.

Lemma local_run E (p : gprog unit) s : GI cfg s -> safe (LI cfg E s) GR (Ltok E) (λ _, True) (λ _ _, True) p s ->
  agree_outside E s (run p s).1.1 /\ sends_about E s (run p s).1.1.
Proof.
  intros HI Hs.
  pose proof (safe_run (LI cfg E s) GR (Ltok E) (λ _, True) (PreOrder0:=w_pre _ _ _ _ _ _ _ (walk_GI cfg))
                (w_tok _ _ _ _ _ _ _ (walk_local cfg E s)) _ p s (LI_start E s HI) Hs) as HR.
  destruct (run p s) as [[s' ts] [x|w]]; cbn; split; apply HR.
Qed.

Lemma handle_local g s : GI cfg s ->
  agree_outside (λ x, x = g_p0 g) s (run (handle cfg g) s).1.1 /\ sends_about (λ x, x = g_p0 g) s (run (handle cfg g) s).1.1.
Proof. intros HI. apply local_run; [done|]. eapply s_handle; [apply walk_local|]. by left. Qed.

Lemma timer_local g s : GI cfg s -> EvStored g ∈ t_trace s -> is_init g ->
  agree_outside (λ x, x = g_p0 g) s (run (start_task cfg (SignLater g)) s).1.1 /\
  sends_about (λ x, x = g_p0 g) s (run (start_task cfg (SignLater g)) s).1.1.
Proof. intros HI H1 H2. apply local_run; [done|]. eapply s_start; [apply walk_local|]. done. Qed.

(** The HTTP handler may replace the payload of a REV fragment; with
    nothing cached that makes it an object about the empty entity. *)
Lemma object_local n g s : GI cfg s ->
  agree_outside (λ x, x = g_p0 g \/ x = "") s (run (object_handler cfg n g) s).1.1 /\
  sends_about (λ x, x = g_p0 g \/ x = "") s (run (object_handler cfg n g) s).1.1.
Proof.
  intros HI. apply local_run; [done|]. eapply s_object; [apply walk_local|by left; left|].
  intros s1 (I1 & _) _ Hk. left. destruct I1 as (_ & H2 & _). unfold reconstruct_payload, obj_at.
  destruct (t_payload s1 !! _) as [o|] eqn:Eo.
  - left. apply H2 in Eo as (_ & Hi & _). injection Hi as _ _ Hi. by destruct g.
  - right. by destruct g.
Qed.

Lemma object_local_cached n g s : GI cfg s ->
  obj_kind g <> KFrag Rev \/ gc_opt_mode cfg = false \/ is_Some (t_payload s !! mkgid (g_period g) REV_INIT (g_p0 g)) ->
  agree_outside (λ x, x = g_p0 g) s (run (object_handler cfg n g) s).1.1 /\
  sends_about (λ x, x = g_p0 g) s (run (object_handler cfg n g) s).1.1.
Proof.
  intros HI Hc. destruct (decide (obj_kind g = KFrag Rev)) as [Hk|Hk].
  - destruct Hc as [Hc|Hc]; [done|]. unfold object_handler. rewrite Hk. rewrite (bool_decide_eq_false_2 (KFrag Rev = KObj (OInit Rev))) by done.
    rewrite andb_false_r, bool_decide_eq_true_2 by done. rewrite andb_true_r. cbn [pwhen pskip pbind].
    destruct (gc_opt_mode cfg) eqn:Em; [|by apply handle_local].
    destruct Hc as [Hc|[o Ho]]; [done|]. cbn [run pbind pread].
    assert (g_p0 (reconstruct_payload s g) = g_p0 g) as Ep.
    { unfold reconstruct_payload, obj_at. rewrite Ho. apply (proj1 (proj2 HI)) in Ho as (_ & Hi & _). injection Hi as _ _ Hi. by destruct g. }
    rewrite <- Ep. by apply handle_local.
  - apply local_run; [done|]. eapply s_object; [apply walk_local|by left|]. done.
Qed.
End local2.
