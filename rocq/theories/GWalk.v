(** One walk over all gossiper programs: if every atomic action keeps
    [I] and moves along [R], all handlers are safe under interference. *)
From Verif Require Import Bytes Hex Json Types Crypto Verify Prog Gossiper SpecVerify ProgFacts GstFacts CodecFacts CryptoFacts VerifyFacts.
From Coq Require Import Lia.
Open Scope string_scope.

Section walk.
Context {P : prims} (cfg : gconf P).
Notation cc := (gc_crypto cfg).
Notation T := (cc_threshold cc).

Lemma con_kind now o1 o2 : obj_kind (generate_con now o1 o2) = KObj OCon.
Proof. reflexivity. Qed.

Lemma frag_of_kind g sg f : obj_kind g = KObj (OInit f) -> obj_kind (frag_of cfg g sg) = KFrag f.
Proof.
  intros H. destruct g as [a p t si ss s0 s1 ti sc p0 p1 p2]. unfold obj_kind, frag_of in *. cbn [g_type] in *. rewrite H. apply kind_frag.
Qed.

Lemma target_kind g f : obj_kind g = KFrag f -> kind_of (target_type g) = KObj (OFull f).
Proof. intros H. unfold target_type. rewrite H. apply kind_full. Qed.

(** Nesting depth of handler calls. *)
Definition rank (g : gobj) : nat :=
  match obj_kind g with KObj (OInit _) => 3 | KFrag _ => 2 | _ => 1 end.

Lemma rank_le g : rank g <= 3.
Proof. unfold rank. destruct (obj_kind g) as [[]| |]; lia. Qed.

Context (I : gst -> Prop) (R : gst -> gst -> Prop) (tok : gtask -> gst -> Prop) (cok : crash -> Prop).
(** [H g s]: object [g] may be handled; [D g s]: it has been stored. *)
Context (H D : gobj -> gst -> Prop).

Definition keeps (s s' : gst) : Prop := I s' /\ R s s'.

Definition sends (g : gobj) : list gevt :=
  map (λ url, ToGossiper url (outgoing cfg g).1 (outgoing cfg g).2) (gc_neighbours cfg).
Definition inserted (s : gst) (k : okind) (g : gobj) : gst :=
  add_trace (set_tbl s k (<[get_id g := g]> (get_tbl s k))) [EvStored g].
Definition full_of (period stamp : string) (l : list gobj) (ts : thrsig P) (g0 : gobj) (ty : string) : gobj :=
  mkobj CTNG_APPLICATION period ty "" (map g_signer l) (thrsig_string ts) "" stamp "bls" (g_p0 g0) (g_p1 g0) (g_p2 g0).
Definition frags_of (l : list gobj) : list (sigfrag P) := map (λ g, fst (sigfrag_from_string (g_s0 g))) l.

Record walk_ok : Prop := {
  w_pre : PreOrder R;
  w_tok : forall t s s', tok t s -> R s s' -> tok t s';
  w_H : forall g s s', H g s -> R s s' -> H g s';
  w_D : forall g s s', D g s -> R s s' -> D g s';
  w_insert : forall s g k, (k = OCon \/ exists f, k = OInit f) -> I s -> H g s -> verify cc g = Accept ->
    obj_kind g = KObj k -> is_duplicate s g = false -> keeps s (inserted s k g) /\ D g (inserted s k g);
  w_full : forall s g f, I s -> H g s -> verify cc g = Accept -> obj_kind g = KObj (OFull f) ->
    keeps s (inserted s (OFull f) g) /\ D g (inserted s (OFull f) g);
  w_black : forall s g, I s -> H g s -> D g s -> verify cc g = Accept ->
    (obj_kind g = KObj OCon \/ obj_kind g = KObj (OFull Acc)) ->
    keeps s (set_black s ({[g_p0 g]} ∪ t_black s));
  w_conv : forall s, I s -> keeps s (set_conv s (k_second s));
  w_conv_init : forall s, I s -> keeps s (set_conv_init s (k_second s));
  w_payload : forall s g, I s -> H g s -> verify cc g = Accept -> obj_kind g = KObj (OInit Rev) ->
    keeps s (set_payload s (<[get_id g := g]> (t_payload s)));
  w_reads : forall s g f, I s -> H g s -> obj_kind g = KFrag f -> keeps s (read_and_store cfg f g s).1;
  w_send : forall s g k, I s -> H g s -> D g s -> verify cc g = Accept -> obj_kind g = KObj k ->
    k = OCon \/ k = OInit Sth \/ k = OInit Rev ->
    keeps s (add_trace s (sends g)) /\ keeps s (add_trace s [ToMonitor (gc_owner cfg) g]);
  w_send_frag : forall s g f, I s -> H g s -> obj_kind g = KFrag f -> keeps s (add_trace s (sends g));
  w_send_full : forall s g f, I s -> H g s -> obj_kind g = KObj (OFull f) ->
    keeps s (add_trace s [ToMonitor (gc_owner cfg) g]);
  w_later : forall s g f, I s -> H g s -> D g s -> verify cc g = Accept -> obj_kind g = KObj (OInit f) -> f <> Acc ->
    tok (SignLater g) s;
  w_sign_timer : forall s0 s g sf, tok (SignLater g) s -> I s0 -> in_blacklist s0 (g_p0 g) = false -> R s0 s -> I s ->
    cc_thr_sign cc (signed_msg g) = Some sf ->
    let fr := frag_of cfg g (sigfrag_string sf) in
    keeps s (add_trace s [EvSigned g fr]) /\ H fr (add_trace s [EvSigned g fr]);
  w_sign_acc : forall s0 s g sf, H g s -> D g s -> verify cc g = Accept -> obj_kind g = KObj (OInit Acc) ->
    I s0 -> in_blacklist s0 (g_p0 g) = false -> R s0 s -> I s ->
    cc_thr_sign cc (signed_msg g) = Some sf ->
    let fr := frag_of cfg g (sigfrag_string sf) in
    keeps s (add_trace s [EvSigned g fr]) /\ H fr (add_trace s [EvSigned g fr]);
  w_mal : forall s0 s g f, f <> Acc -> obj_kind g = KObj (OInit f) -> I s0 -> H g s0 -> is_malicious s0 g = true ->
    R s0 s -> I s -> forall now, H (generate_con now (get_object s (get_id g) (OInit f)) g) s;
  w_fullgen : forall s0 s s' g f l g0 ts, obj_kind g = KFrag f -> I s0 -> H g s0 ->
    S (length (get_object_list s0 (get_id g) f)) = T -> R (read_and_store cfg f g s0).1 s -> I s ->
    l = get_object_list s (get_id g) f -> cc_thr_aggregate cc (frags_of l) = Some ts -> head l = Some g0 ->
    R s s' -> I s' -> forall period stamp, (exists s1, R s s1 /\ R s1 s' /\ period = k_period s1) ->
    let full := full_of period stamp l ts g0 (target_type g) in
    keeps s' (add_trace s' [EvFull full]) /\ H full (add_trace s' [EvFull full]);
  w_panic : forall g s, H g s -> verify cc g = Panics -> cok NilDeref;
  w_noscheme : cc_thr_scheme cc <> "bls" -> cok NilDeref;
  w_agg : forall s0 s g f, obj_kind g = KFrag f -> I s0 -> H g s0 ->
    S (length (get_object_list s0 (get_id g) f)) = T -> R (read_and_store cfg f g s0).1 s -> I s ->
    cc_thr_scheme cc = "bls" -> length (get_object_list s (get_id g) f) < T -> cok NilDeref
}.

Context (W : walk_ok).
Local Instance w_pre_inst : PreOrder R := w_pre W.

Notation safe := (safe I R tok cok).
Notation TT := (λ _ _, True).

Lemma s_read {X} (f : gst -> X) (Q : X -> gst -> Prop) s :
  (forall s1, R s s1 -> I s1 -> Q (f s1) s1) -> safe Q (pread f) s.
Proof. intros HQ s1 H1 H2. cbn. split_and!; auto; try reflexivity. Qed.

Lemma s_modify (f : gst -> gst) (Q : unit -> gst -> Prop) s :
  (forall s1, R s s1 -> I s1 -> keeps s1 (f s1) /\ Q tt (f s1)) -> safe Q (pmodify f) s.
Proof. intros HQ s1 H1 H2. cbn. destruct (HQ s1 H1 H2) as [[? ?] ?]. split_and!; auto. Qed.

Lemma s_atomic {X} (f : gst -> gst * X) (Q : X -> gst -> Prop) s :
  (forall s1, R s s1 -> I s1 -> keeps s1 (f s1).1 /\ Q (f s1).2 (f s1).1) -> safe Q (patomic f) s.
Proof. intros HQ s1 H1 H2. cbn. destruct (HQ s1 H1 H2) as [[? ?] ?]. split_and!; auto. Qed.

Lemma s_skip (Q : unit -> gst -> Prop) s : Q tt s -> safe Q pskip s.
Proof. done. Qed.

Lemma s_when b p (Q : unit -> gst -> Prop) s : (b = true -> safe Q p s) -> (b = false -> Q tt s) -> safe Q (pwhen b p) s.
Proof. destruct b; cbn; auto. Qed.

Local Ltac tr := match goal with
  | |- R ?a ?a => reflexivity
  | H1 : R ?a ?b |- R ?a ?b => exact H1
  | H1 : R ?a ?b |- R ?a ?c => transitivity b; [exact H1|clear H1; tr]
  | H1 : keeps ?a ?b |- R ?a ?c => transitivity b; [exact (proj2 H1)|clear H1; tr]
  end.

Local Ltac mv := match goal with
  | H1 : H ?g ?s |- H ?g ?s' => solve [eapply (w_H W); [exact H1|tr]]
  | H1 : D ?g ?s |- D ?g ?s' => solve [eapply (w_D W); [exact H1|tr]]
  end.

Lemma s_note_init_convergence s (Q : unit -> gst -> Prop) :
  (forall s1, R s s1 -> Q tt s1) -> safe Q (note_init_convergence cfg) s.
Proof using All.
  intros HQ. unfold note_init_convergence. apply safe_bind, s_read. intros s1 H1 I1.
  apply s_when; [|auto]. intros _. apply s_modify. intros s2 H2 I2. pose proof (w_conv_init W s2 I2) as K.
  split; [done|]. apply HQ. tr.
Qed.

Lemma s_add_blacklist s g (Q : unit -> gst -> Prop) :
  H g s -> D g s -> verify cc g = Accept -> (obj_kind g = KObj OCon \/ obj_kind g = KObj (OFull Acc)) ->
  (forall s1, R s s1 -> Q tt s1) -> safe Q (add_blacklist (g_p0 g)) s.
Proof using All.
  intros HH HD Hv Hk HQ. unfold add_blacklist. apply safe_bind, s_read. intros s1 H1 I1.
  apply s_when; [|auto]. intros _. apply s_modify. intros s2 H2 I2.
  assert (keeps s2 (set_black s2 ({[g_p0 g]} ∪ t_black s2))) as K.
  { apply (w_black W); auto; mv. }
  split; [done|]. apply HQ. tr.
Qed.

(** After a successful store the object has been stored and is valid. *)
Lemma s_store s g (Q : bool -> gst -> Prop) :
  H g s -> (exists k, obj_kind g = KObj k) ->
  (forall s1, R s s1 -> Q false s1) ->
  (forall s1, R s s1 -> D g s1 -> verify cc g = Accept -> Q true s1) ->
  safe Q (store cfg g) s.
Proof using All.
  intros HH Hk HF HT. unfold store. destruct (verify cc g) eqn:Hv.
  2: { apply HF. reflexivity. }
  2: { by eapply (w_panic W). }
  destruct Hk as [k Ek].
  rewrite Ek. destruct k as [f| |f].
  - apply safe_bind, s_atomic. intros s1 H1 I1. unfold insert_unless_dup. destruct (is_duplicate s1 g) eqn:Ed; cbn [fst snd negb].
    + split; [split; [done|reflexivity]|]. apply HF. tr.
    + assert (H g s1) as HH1 by mv.
      destruct (w_insert W s1 g (OInit f) ltac:(eauto) I1 HH1 Hv Ek Ed) as [K1 D1].
      split; [exact K1|]. apply safe_bind, s_note_init_convergence. intros s2 H2. apply HT; auto.
      * fold (inserted s1 (OInit f) g) in H2. tr.
      * by eapply (w_D W).
  - apply safe_bind, s_atomic. intros s1 H1 I1. unfold insert_unless_dup. destruct (is_duplicate s1 g) eqn:Ed; cbn [fst snd negb].
    + split; [split; [done|reflexivity]|]. apply HF. tr.
    + assert (H g s1) as HH1 by mv.
      destruct (w_insert W s1 g OCon ltac:(eauto) I1 HH1 Hv Ek Ed) as [K1 D1].
      split; [exact K1|]. fold (inserted s1 OCon g). apply safe_bind, (s_add_blacklist _ g); auto.
      { eapply (w_H W); [exact HH1|]. tr. }
      intros s2 H2. apply safe_bind, s_note_init_convergence. intros s3 H3. apply HT; auto.
      * tr.
      * eapply (w_D W); [exact D1|]. tr.
  - apply safe_bind, s_modify. intros s1 H1 I1. fold (inserted s1 (OFull f) g).
    assert (H g s1) as HH1 by mv.
    destruct (w_full W s1 g f I1 HH1 Hv Ek) as [K1 D1].
    split; [exact K1|]. apply safe_bind, s_when.
    + intros Hf. apply bool_decide_eq_true in Hf as ->. apply (s_add_blacklist _ g); auto.
      { eapply (w_H W); [exact HH1|]. tr. }
      intros s2 H2. apply HT; auto; [tr|]. eapply (w_D W); [exact D1|]. tr.
    + intros _. apply HT; auto. tr.
Qed.

Lemma s_send s g (k : okind) (Q : unit -> gst -> Prop) : H g s -> D g s -> verify cc g = Accept ->
  obj_kind g = KObj k -> k = OCon \/ k = OInit Sth \/ k = OInit Rev ->
  (forall s1, R s s1 -> I s1 -> Q tt s1) ->
  safe Q (send_to_gossipers cfg g >>> send_to_monitor cfg g) s.
Proof using All.
  intros HH HD Hv Ek Hk HQ. apply safe_bind, s_modify. intros s1 H1 I1.
  assert (H g s1) as HH1 by mv. assert (D g s1) as HD1 by mv.
  destruct (w_send W s1 g k I1 HH1 HD1 Hv Ek Hk) as [K1 _]. split; [exact K1|]. fold (sends g).
  apply s_modify. intros s2 H2 I2.
  assert (R s s2) as H02 by (transitivity s1; [done|]; tr).
  assert (H g s2) as HH2 by mv. assert (D g s2) as HD2 by mv.
  destruct (w_send W s2 g k I2 HH2 HD2 Hv Ek Hk) as [_ K2]. split; [exact K2|]. apply HQ; [|apply K2]. tr.
Qed.

Section body.
Context (rec : gobj -> gprog unit) (n : nat).
Context (rec_safe : forall g s, rank g <= n -> H g s -> safe TT (rec g) s).

Lemma s_handle_init f g s : f <> Acc -> 3 <= S n -> obj_kind g = KObj (OInit f) -> H g s -> safe TT (handle_init cfg rec f g) s.
Proof using All.
  intros Hf Hn Ek HH. unfold handle_init. apply safe_bind, s_read. intros s1 H1 I1.
  destruct (Nat.ltb 0 _); [done|]. apply safe_bind, s_read. intros s2 H2 I2.
  destruct (Nat.leb _ _); [done|]. apply safe_bind, s_read. intros s3 H3 I3.
  destruct (is_malicious s3 g) eqn:Em.
  - apply safe_bind, s_read. intros s4 H4 I4. apply safe_bind, s_read. intros s5 H5 I5.
    apply rec_safe; [unfold rank; rewrite con_kind; lia|].
    eapply (w_H W); [|exact H5]. apply (w_mal W s3); auto. mv.
  - assert (H g s3) as HH3 by mv.
    apply safe_bind, s_store; eauto; [done|]. intros s4 H4 D4 Hv. cbn [negb].
    assert (H g s4) as HH4 by mv.
    apply (safe_bind I R tok cok) with (p := send_to_gossipers cfg g).
    apply s_modify. intros s5 H5 I5.
    assert (H g s5) as HH5 by mv. assert (D g s5) as HD5 by mv.
    assert (OInit f = OCon \/ OInit f = OInit Sth \/ OInit f = OInit Rev) as Hk by (destruct f; auto; done).
    destruct (w_send W s5 g _ I5 HH5 HD5 Hv Ek Hk) as [K5 _]. split; [exact K5|]. fold (sends g).
    apply safe_bind, s_modify. intros s6 H6 I6.
    assert (R s5 s6) as H56 by tr.
    assert (H g s6) as HH6 by mv. assert (D g s6) as HD6 by mv.
    destruct (w_send W s6 g _ I6 HH6 HD6 Hv Ek Hk) as [_ K6]. split; [exact K6|].
    split; [|done]. eapply (w_tok W); [|exact (proj2 K6)]. eapply (w_later W); eauto.
Qed.

Lemma s_handle_acc g s : 3 <= S n -> obj_kind g = KObj (OInit Acc) -> H g s -> safe TT (handle_acc_init cfg rec g) s.
Proof using All.
  intros Hn Ek HH. unfold handle_acc_init. apply safe_bind, s_read. intros s1 H1 I1.
  destruct (Nat.ltb 0 _); [done|]. apply safe_bind, s_read. intros s2 H2 I2.
  destruct (Nat.leb _ _); [done|].
  assert (H g s2) as HH2 by mv.
  apply safe_bind, s_store; eauto; [done|]. intros s3 H3 D3 Hv. cbn [negb].
  apply safe_bind, s_read. intros s4 H4 I4. destruct (in_blacklist s4 (g_p0 g)) eqn:Eb; [done|].
  apply safe_bind. unfold generate_frag. destruct (cc_thr_sign cc (signed_msg g)) as [sf|] eqn:Es.
  - apply safe_bind, s_modify. intros s5 H5 I5.
    assert (R s2 s5) as H25 by tr. assert (R s3 s5) as H35 by tr.
    destruct (w_sign_acc W s4 s5 g sf) as [K5 HF]; auto; [by eapply (w_H W)|by eapply (w_D W)|].
    split; [exact K5|]. apply rec_safe; [|exact HF]. unfold rank. rewrite (frag_of_kind g _ Acc Ek). lia.
  - cbn. apply (w_noscheme W). unfold cc_thr_sign in Es. destruct (String.eqb_spec (cc_thr_scheme cc) "bls"); done.
Qed.

Lemma s_handle_con g s : obj_kind g = KObj OCon -> H g s -> safe TT (handle_con cfg g) s.
Proof using All.
  intros Ek HH. unfold handle_con. apply safe_bind, s_read. intros s1 H1 I1.
  destruct (Nat.eqb _ 0); [|done].
  assert (H g s1) as HH1 by mv.
  apply safe_bind, s_store; eauto; [done|]. intros s2 H2 D2 Hv. cbn [negb].
  eapply s_send; eauto. by eapply (w_H W).
Qed.

Lemma s_handle_full f g s : obj_kind g = KObj (OFull f) -> H g s -> safe TT (handle_full cfg f g) s.
Proof using All.
  intros Ek HH. unfold handle_full. apply safe_bind, s_read. intros s1 H1 I1.
  destruct (in_blacklist s1 (g_p0 g)); [done|].
  apply safe_bind, s_read. intros s2 H2 I2. apply safe_bind.
  assert (forall s3, safe TT (do conv <- pread (is_convergent cfg); pwhen conv (pmodify (λ s, set_conv s (k_second s)))) s3) as Hrest.
  { intros s3. apply safe_bind, s_read. intros s4 H4 I4. apply s_when; [|done]. intros _. apply s_modify.
    intros s5 H5 I5. split; [by apply (w_conv W)|done]. }
  destruct (Nat.eqb _ 0); [|apply s_skip, Hrest].
  assert (H g s2) as HH2 by mv.
  assert (forall s3, R s2 s3 -> safe (λ _ x, safe TT (do conv <- pread (is_convergent cfg); pwhen conv (pmodify (λ s, set_conv s (k_second s)))) x) (send_to_monitor cfg g) s3) as Hsend.
  { intros s3 H3. apply s_modify. intros s4 H4 I4. split; [|apply Hrest]. eapply (w_send_full W); eauto.
    eapply (w_H W); [exact HH2|]. tr. }
  apply safe_bind, s_store; eauto.
Qed.

Lemma s_handle_frag f g s : 2 <= S n -> obj_kind g = KFrag f -> H g s -> safe TT (handle_frag cfg rec f g) s.
Proof using All.
  intros Hn Ek HH. unfold handle_frag. apply safe_bind, s_read. intros s1 H1 I1.
  destruct (Nat.ltb 0 _); [done|].
  apply safe_bind, s_atomic. intros s2 H2 I2.
  assert (H g s2) as HH2 by mv.
  pose proof (w_reads W s2 g f I2 HH2 Ek) as K2. split; [exact K2|].
  set (before := (read_and_store cfg f g s2).2). set (s2' := (read_and_store cfg f g s2).1) in *.
  assert (before = length (get_object_list s2 (get_id g) f)) as Hb by reflexivity.
  assert (forall s3, H g s3 -> safe TT (pwhen (Nat.ltb before T) (send_to_gossipers cfg g)) s3) as Hrest.
  { intros s3 HH3. apply s_when; [|done]. intros _. apply s_modify. intros s4 H4 I4. split; [|done].
    eapply (w_send_frag W); eauto. by eapply (w_H W). }
  assert (H g s2') as HH2' by (eapply (w_H W); [exact HH2|apply K2]).
  apply safe_bind. destruct (Nat.eqb_spec (S before) T) as [HbT|]; [|by apply s_skip, Hrest].
  apply safe_bind, s_read. intros s3 H3 I3. apply safe_bind. unfold generate_full.
  fold (frags_of (get_object_list s3 (get_id g) f)).
  set (l := get_object_list s3 (get_id g) f) in *.
  destruct (cc_thr_aggregate cc (frags_of l)) as [ts|] eqn:Ea.
  2: { cbn. destruct (String.eqb_spec (cc_thr_scheme cc) "bls") as [Hs|Hs]; [|by apply (w_noscheme W)].
       eapply (w_agg W s2 s3 g f); eauto. fold l.
       unfold cc_thr_aggregate in Ea. rewrite Hs in Ea. cbn in Ea. unfold thr_aggregate in Ea.
       destruct (Nat.ltb_spec (length (frags_of l)) T) as [Hl|]; [|done]. unfold frags_of in Hl. by rewrite map_length in Hl. }
  destruct l as [|g0 l'] eqn:El.
  { exfalso. unfold cc_thr_aggregate in Ea. destruct (String.eqb _ _); [|done]. unfold thr_aggregate in Ea.
    change (length (frags_of [])) with 0 in Ea. rewrite <- HbT in Ea. by cbn in Ea. }
  assert (head l = Some g0) as Hh by (by rewrite El). rewrite <- El in *. clear l' El. apply safe_bind, s_read. intros s4 H4 I4. cbn [safe].
  apply safe_bind, s_modify. intros s5 H5 I5.
  destruct (w_fullgen W s2 s3 s5 g f l g0 ts Ek I2 HH2 HbT H3 I3 eq_refl Ea Hh ltac:(tr) I5 (k_period s4) (k_stamp s4)) as [K5 HF]; [by exists s4|].
  split; [exact K5|].
  eapply safe_weaken; [|apply safe_moves; [apply (w_pre W)|apply rec_safe; [|exact HF]]].
  - cbn. intros _ s6 [_ H6]. apply Hrest. eapply (w_H W); [exact HH2'|]. tr.
  - unfold rank. unfold obj_kind. cbn [g_type full_of]. rewrite (target_kind g f Ek). lia.
Qed.

Lemma s_handle_body g s : rank g <= S n -> H g s -> safe TT (handle_body cfg rec g) s.
Proof using All.
  intros Hr HH. unfold handle_body. apply safe_bind, s_read. intros s1 H1 I1.
  destruct (is_duplicate s1 g); [done|]. apply safe_bind, s_read. intros s2 H2 I2.
  destruct (in_blacklist s2 (g_p0 g)); [done|].
  assert (H g s2) as HH2 by mv.
  unfold rank in Hr. destruct (obj_kind g) as [[[]| |]| |] eqn:Ek.
  - by apply s_handle_init.
  - by apply s_handle_init.
  - by apply s_handle_acc.
  - by apply s_handle_con.
  - by apply s_handle_full.
  - by apply s_handle_frag.
  - done.
Qed.
End body.

Lemma s_handle_n n g s : rank g <= n -> H g s -> safe TT (handle_n cfg n g) s.
Proof using All.
  revert g s. induction n as [|n IH]; intros g s Hr HH.
  - exfalso. unfold rank in Hr. destruct (obj_kind g) as [[]| |]; lia.
  - cbn [handle_n]. by apply (s_handle_body _ n IH).
Qed.

Lemma s_handle g s : H g s -> safe TT (handle cfg g) s.
Proof using All. intros HH. apply s_handle_n; [apply rank_le|done]. Qed.

Lemma s_start t s : tok t s -> safe TT (start_task cfg t) s.
Proof using All.
  destruct t as [g]. intros Ht. unfold start_task. apply safe_bind, s_read. intros s1 H1 I1.
  destruct (in_blacklist s1 (g_p0 g)) eqn:Eb; [done|].
  apply safe_bind. unfold generate_frag. destruct (cc_thr_sign cc (signed_msg g)) as [sf|] eqn:Es.
  - apply safe_bind, s_modify. intros s2 H2 I2.
    destruct (w_sign_timer W s1 s2 g sf) as [K HF]; auto.
    { eapply (w_tok W); [exact Ht|]. tr. }
    split; [exact K|]. by apply s_handle.
  - cbn. apply (w_noscheme W). unfold cc_thr_sign in Es. destruct (String.eqb_spec (cc_thr_scheme cc) "bls"); done.
Qed.

Lemma s_object b g s : H g s ->
  (forall s, I s -> H g s -> obj_kind g = KFrag Rev -> H (reconstruct_payload s g) s) ->
  safe TT (object_handler cfg b g) s.
Proof using All.
  intros HH Hrec. unfold object_handler. apply safe_bind, s_when.
  - intros Hb. apply andb_true_iff in Hb as [_ Hb]. apply bool_decide_eq_true in Hb.
    unfold save_payload. destruct (verify cc g) eqn:Hv.
    + apply s_modify. intros s1 H1 I1. assert (H g s1) as HH1 by mv.
      split; [by apply (w_payload W)|]. rewrite bool_decide_eq_false_2 by congruence. rewrite andb_false_r.
      apply s_handle. eapply (w_H W); [exact HH1|]. apply (w_payload W); auto.
    + apply s_skip. rewrite bool_decide_eq_false_2 by congruence. rewrite andb_false_r. by apply s_handle.
    + by eapply (w_panic W).
  - intros _. destruct (gc_opt_mode cfg && _) eqn:E; [|by apply s_handle].
    apply andb_true_iff in E as [_ E]. apply bool_decide_eq_true in E.
    apply safe_bind, s_read. intros s1 H1 I1. apply s_handle. apply Hrec; auto. by eapply (w_H W).
Qed.

Lemma s_notification n s :
  (forall s url ep n, I s -> keeps s (add_trace s [ToGossiper url ep (MNote n)])) ->
  safe TT (notification_handler cfg n) s.
Proof using All.
  intros Hn. unfold notification_handler. apply safe_bind, s_read. intros s1 H1 I1. apply s_when; [|done]. intros _.
  apply s_modify. intros s2 H2 I2. split; [|done]. by apply Hn.
Qed.

Lemma s_request n s :
  (forall s0 s i o url, I s0 -> t_payload s0 !! i = Some o -> R s0 s -> I s ->
     keeps s (add_trace s [ToGossiper url "/gossip/rev_init" (MObj o)])) ->
  safe TT (request_handler n) s.
Proof using All.
  intros Hn. unfold request_handler. apply safe_bind, s_read. intros s1 H1 I1. apply s_when; [|done]. intros Hp.
  unfold obj_at in *. destruct (t_payload s1 !! _) as [o|] eqn:Eo; [|done].
  apply s_modify. intros s2 H2 I2. split; [|done]. eapply (Hn s1 s2); eauto.
Qed.

Lemma s_periodic s :
  (forall s e, I s -> keeps s (set_log s e)) ->
  (forall s, I s -> keeps s (replace_storage s).1) ->
  (forall s0 s, I s0 -> R (replace_storage s0).1 s -> I s -> keeps s (set_tbl s OCon (get_tbl s0 OCon))) ->
  (forall s, I s -> keeps s (set_black s ∅)) ->
  (forall s0 s, I s0 -> R (set_black s0 ∅) s -> I s -> keeps s (set_black s (t_black s0))) ->
  safe TT periodic s.
Proof using All.
  intros A1 A2 A3 A4 A5. unfold periodic, save, wipe. apply safe_bind, s_modify. intros s1 H1 I1. split.
  { destruct (entry_nonzero _); [by apply A1|]. split; [done|reflexivity]. }
  apply safe_bind, s_atomic. intros s2 H2 I2. split; [by apply A2|]. rewrite replace_con.
  apply safe_bind, s_modify. intros s3 H3 I3. split; [by apply A3|].
  apply safe_bind, s_atomic. intros s4 H4 I4. cbn [fst snd]. split; [by apply A4|].
  apply s_modify. intros s5 H5 I5. split; [|done]. by apply A5.
Qed.
End walk.
