(** The fine-grained handlers of the gossiper refine those of Gossiper.v. *)
From Verif Require Import Bytes Hex Base64 Json Types Crypto Verify Prog Gossiper SpecGossiper ProgFacts GstFacts Locks LockUse Fine FineGossiper FineFacts.
From Coq Require Import Lia.
Open Scope string_scope.

(** The tables a lock protects are equal. *)
Definition same (k : string) (s s' : gst) : Prop :=
  (forall q, k = tlock q -> get_tbl s q = get_tbl s' q) /\ (forall f, k = flock f -> get_frags s f = get_frags s' f) /\
  (k = plock -> t_payload s = t_payload s') /\ (k = block -> t_black s = t_black s').
Lemma same_equiv k : Equivalence (same k).
Proof.
  split.
  - intros a. unfold same. auto.
  - intros a b (H1&H2&H3&H4). split; [|split; [|split]]; intros; symmetry; auto.
  - intros a b c (H1&H2&H3&H4) (G1&G2&G3&G4). split; [|split; [|split]]; intros.
    + by rewrite H1, G1. + by rewrite H2, G2. + by rewrite H3, G3. + by rewrite H4, G4.
Qed.
Lemma same_any k s s' : (forall q, get_tbl s q = get_tbl s' q) -> (forall f, get_frags s f = get_frags s' f) -> t_payload s = t_payload s' -> t_black s = t_black s' -> same k s s'.
Proof. by repeat split. Qed.
Lemma same_trace k s l : same k s (add_trace s l).
Proof. apply same_any; destruct s; try done; by intros [[]| |[]] || by intros []. Qed.
Lemma same_conv k s x : same k s (set_conv s x).
Proof. apply same_any; destruct s; try done; by intros [[]| |[]] || by intros []. Qed.
Lemma same_conv_init k s x : same k s (set_conv_init s x).
Proof. apply same_any; destruct s; try done; by intros [[]| |[]] || by intros []. Qed.
Lemma same_clock k s s' : clock_step s s' -> same k s s'.
Proof. intros (a&b&c&->). apply same_any; destruct s; try done; by intros [[]| |[]] || by intros []. Qed.
Lemma same_set_tbl k q s m : k <> tlock q -> same k s (set_tbl s q m).
Proof.
  intros Hk. split; [|split; [|split]]; intros.
  - rewrite get_tbl_set_tbl. by destruct (decide (q = q0)) as [->|].
  - by rewrite get_frags_set_tbl. - by rewrite t_payload_set_tbl. - by rewrite t_black_set_tbl.
Qed.
Lemma same_set_frags k f s m : k <> flock f -> same k s (set_frags s f m).
Proof.
  intros Hk. split; [|split; [|split]]; intros.
  - by rewrite get_tbl_set_frags. - rewrite get_frags_set_frags. by destruct (decide (f = f0)) as [->|].
  - by rewrite t_payload_set_frags. - by rewrite t_black_set_frags.
Qed.
Lemma same_set_payload k s m : k <> plock -> same k s (set_payload s m).
Proof.
  intros Hk. split; [|split; [|split]]; intros; [by rewrite get_tbl_set_payload|by rewrite get_frags_set_payload|done|by rewrite t_black_set_payload].
Qed.
Lemma same_set_black k s m : k <> block -> same k s (set_black s m).
Proof.
  intros Hk. split; [|split; [|split]]; intros; [by rewrite get_tbl_set_black|by rewrite get_frags_set_black|by rewrite t_payload_set_black|done].
Qed.

Notation sim := (FineFacts.sim (Task := gtask) same).
Notation refines := (FineFacts.refines (Task := gtask) same).
Notation agree := (agree same).
Notation frame := (frame same).
Notation HE := same_equiv.

Lemma frame_refl h s : frame h s s.
Proof. intros k _. apply HE. Qed.
Lemma frame_w k h s s' l : (forall q, q <> k -> same q s s') -> frame ((k, HW) :: h) s (add_trace s' l).
Proof. intros H q Hq. eapply (@transitivity _ _ (@Equivalence_Transitive _ _ (HE q))); [apply H|apply same_trace]. intros ->. apply Hq. left. Qed.
Lemma frame_w' k h s s' : (forall q, q <> k -> same q s s') -> frame ((k, HW) :: h) s s'.
Proof. intros H q Hq. apply H. intros ->. apply Hq. left. Qed.

Lemma ag_tbl h s s' q : agree h s s' -> (tlock q, HR) ∈ h \/ (tlock q, HW) ∈ h -> get_tbl s' q = get_tbl s q.
Proof. intros H Hk. symmetry. by apply (H _ Hk). Qed.
Lemma ag_frags h s s' f : agree h s s' -> (flock f, HR) ∈ h \/ (flock f, HW) ∈ h -> get_frags s' f = get_frags s f.
Proof. intros H Hk. symmetry. by apply (H _ Hk). Qed.
Lemma ag_pay h s s' : agree h s s' -> (plock, HR) ∈ h \/ (plock, HW) ∈ h -> t_payload s' = t_payload s.
Proof. intros H Hk. symmetry. by apply (H _ Hk). Qed.

Section steps.
Context {A : Type}.
Implicit Types (p : gprog A) (m : gmprog A) (h : held) (s : gst).
(** A read whose value stays, and a step that is the one of [p]. *)
Lemma L_read {X} (r : gst -> X) (k : X -> gmprog A) h s p : (forall s', agree h s s' -> r s' = r s) -> sim (k (r s)) h s p -> sim (MAct (λ s, (s, r s)) k) h s p.
Proof. intros H1 H2. cbn. left. split; [done|]. split; [done|]. intros s' Hs'. by eapply (sim_stable same HE). Qed.
Lemma L_rlock k m h s p : (forall s', agree h s s' -> sim m ((k, HR) :: h) s' p) -> sim (MSync (RLock k) m) h s p.
Proof. done. Qed.
Lemma L_lock k m h s p : (forall s', agree h s s' -> sim m ((k, HW) :: h) s' p) -> sim (MSync (Lock k) m) h s p.
Proof. done. Qed.
Lemma L_runlock k m h s p : (forall s', sim m h s' p) -> sim (MSync (RUnlock k) m) ((k, HR) :: h) s p.
Proof. intros H. cbn. exists h. eauto. Qed.
Lemma L_unlock k m h s p : (forall s', sim m h s' p) -> sim (MSync (Unlock k) m) ((k, HW) :: h) s p.
Proof. intros H. cbn. exists h. eauto. Qed.
Lemma L_commit {X Y} (f : gst -> gst * X) (k : X -> gmprog A) (g : gst -> gst * Y) (pk : Y -> gprog A) h s :
  (forall s', agree h s s' -> (g s').1 = (f s').1 /\ frame h s' (f s').1 /\ forall s2, sim (k (f s').2) h s2 (pk (g s').2)) -> sim (MAct f k) h s (Act g pk).
Proof. intros H. cbn. right. intros s' Hs'. destruct (H s' Hs') as (H1&H2&H3). exists (pk (g s').2). split; [by split|]. split; [exact H2|apply H3]. Qed.
End steps.

(** One read under one read lock. *)
Lemma ref_rlocked {X Y} k (r : gst -> X) (v : X -> Y) (q : gst -> Y) : (forall s, q s = v (r s)) ->
  refines (mdo x <- rlocked k (mread r); MRet (v x)) (pread q).
Proof.
  intros Hq s. cbn. intros s' _. right. intros s2 _. exists (Ret (q s2)). split; [done|]. split; [apply frame_refl|].
  exists []. split; [done|]. intros. by rewrite Hq.
Qed.
Lemma ref_rlocked1 {X} k (r : gst -> X) : refines (rlocked k (mread r)) (pread r).
Proof.
  intros s. cbn. intros s' _. right. intros s2 _. exists (Ret (r s2)). split; [done|]. split; [apply frame_refl|].
  exists []. split; [done|]. intros. done.
Qed.
(** One write under one write lock. *)
Lemma ref_wlocked k (f : gst -> gst) : (forall q s, q <> k -> same q s (f s)) -> refines (wlocked k (mmodify f)) (pmodify f).
Proof.
  intros Hf s. cbn. intros s' _. right. intros s2 _. exists (Ret tt). split; [done|]. split; [apply frame_w'; auto|].
  exists []. split; [done|]. intros. done.
Qed.
Lemma same_tr q s s' l : same q s s' -> same q s (add_trace s' l).
Proof. intros H. eapply (@transitivity _ _ (@Equivalence_Transitive _ _ (HE q))); [apply H|apply same_trace]. Qed.

Lemma dup_obj_val s g k o : obj_kind g = KObj k -> get_tbl s k !! get_id g = Some o -> is_duplicate s g = same_sig (get_object s (get_id g) k) g.
Proof. intros Hk Ho. unfold is_duplicate, get_object, obj_at. by rewrite Hk, Ho. Qed.
Lemma dup_obj_no s g k : obj_kind g = KObj k -> get_tbl s k !! get_id g = None -> is_duplicate s g = false.
Proof. intros Hk Ho. unfold is_duplicate. by rewrite Hk, Ho. Qed.

Lemma ref_dup g : refines (m_is_duplicate g) (pread (λ s, is_duplicate s g)).
Proof.
  unfold m_is_duplicate. destruct (obj_kind g) as [k|f|] eqn:Ek.
  - intros s. apply L_rlock. intros s1 _. cbn [mbind m_dup_obj mread].
    destruct (get_tbl s1 k !! get_id g) as [o|] eqn:Eo.
    + apply L_read.
      { intros s' Ha. by rewrite (ag_tbl _ _ _ k Ha) by (left; left). }
      rewrite bool_decide_eq_true_2 by (rewrite Eo; eauto). cbn [mbind]. apply L_commit. intros s2 Ha. split; [done|]. split; [apply frame_refl|].
      intros s3. apply L_runlock. intros s4. cbn. split; [done|]. f_equal. eapply dup_obj_val; [done|]. by rewrite (ag_tbl _ _ _ k Ha) by (left; left).
    + apply L_commit. intros s2 Ha. split; [done|]. split; [apply frame_refl|]. intros s3. cbn [snd].
      rewrite (ag_tbl _ _ _ k Ha) by (left; left). rewrite bool_decide_eq_false_2 by (rewrite Eo; by intros []). cbn [mbind].
      apply L_runlock. intros s4. cbn. split; [done|]. f_equal. eapply dup_obj_no; [done|]. by rewrite (ag_tbl _ _ _ k Ha) by (left; left).
  - intros s. apply L_rlock. intros s1 _. cbn [mbind m_dup_frag mread].
    destruct (get_object_list s1 (get_id g) f) as [|o r] eqn:Eo.
    + apply L_commit. intros s2 Ha. split; [done|]. split; [apply frame_refl|]. intros s3. cbn [snd].
      assert (get_object_list s2 (get_id g) f = []) as E2 by (unfold get_object_list in *; by rewrite (ag_frags _ _ _ f Ha) by (left; left)).
      rewrite E2. cbn [length Nat.eqb negb mbind]. apply L_runlock. intros s4. cbn. split; [done|]. f_equal. unfold is_duplicate. by rewrite Ek, E2.
    + apply L_read.
      { intros s' Ha. unfold get_object_list. by rewrite (ag_frags _ _ _ f Ha) by (left; left). }
      rewrite Eo. cbn [length Nat.eqb negb mbind]. apply L_commit. intros s2 Ha. split; [done|]. split; [apply frame_refl|].
      intros s3. apply L_runlock. intros s4. cbn. split; [done|]. f_equal. unfold is_duplicate. by rewrite Ek.
  - intros s. apply L_commit. intros s2 Ha. split; [done|]. split; [apply frame_refl|]. intros s3. cbn. split; [done|]. unfold is_duplicate. by rewrite Ek.
Qed.

Lemma ref_insert g k : obj_kind g = KObj k -> refines (m_insert k g) (patomic (insert_unless_dup k g)).
Proof.
  intros Ek s. apply L_lock. intros s1 _. cbn [mbind m_dup_obj mread].
  destruct (get_tbl s1 k !! get_id g) as [o|] eqn:Eo.
  - apply L_read.
    { intros s' Ha. by rewrite (ag_tbl _ _ _ k Ha) by (right; left). }
    rewrite bool_decide_eq_true_2 by (rewrite Eo; eauto). cbn [mbind].
    destruct (same_sig o g) eqn:Es.
    + apply L_commit. intros s2 Ha. cbn [fst snd].
      assert (get_tbl s2 k !! get_id g = Some o) as Eo2 by (by rewrite (ag_tbl _ _ _ k Ha) by (right; left)).
      assert (get_object s2 (get_id g) k = o) as Eg by (unfold get_object, obj_at; by rewrite Eo2).
      unfold insert_unless_dup. rewrite (dup_obj_val _ _ _ _ Ek Eo2), Eg, Es. cbn [fst snd mbind]. split; [done|]. split; [apply frame_refl|].
      intros s3. apply L_unlock. done.
    + apply L_read.
      { intros s' Ha. unfold get_object. by rewrite (ag_tbl _ _ _ k Ha) by (right; left). }
      assert (get_object s1 (get_id g) k = o) as Eg by (unfold get_object, obj_at; by rewrite Eo).
      rewrite Eg, Es. cbn [mbind]. apply L_commit. intros s2 Ha. cbn [fst snd].
      assert (get_tbl s2 k !! get_id g = Some o) as Eo2 by (by rewrite (ag_tbl _ _ _ k Ha) by (right; left)).
      assert (get_object s2 (get_id g) k = o) as Eg2 by (unfold get_object, obj_at; by rewrite Eo2).
      unfold insert_unless_dup. rewrite (dup_obj_val _ _ _ _ Ek Eo2), Eg2, Es. cbn [fst snd mbind]. split; [done|].
      split; [apply frame_w; intros; by apply same_set_tbl|]. intros s3. apply L_unlock. done.
  - apply L_read.
    { intros s' Ha. by rewrite (ag_tbl _ _ _ k Ha) by (right; left). }
    rewrite bool_decide_eq_false_2 by (rewrite Eo; by intros []). cbn [mbind]. apply L_commit. intros s2 Ha. cbn [fst snd].
    assert (get_tbl s2 k !! get_id g = None) as Eo2 by (by rewrite (ag_tbl _ _ _ k Ha) by (right; left)).
    unfold insert_unless_dup. rewrite (dup_obj_no _ _ _ Ek Eo2). cbn [fst snd mbind]. split; [done|].
    split; [apply frame_w; intros; by apply same_set_tbl|]. intros s3. apply L_unlock. done.
Qed.

Ltac inside := repeat first [left; done | right].
Lemma in1 {X} (a : X) l : a ∈ a :: l. Proof. left. Qed.
Lemma in2 {X} (a b : X) l : a ∈ b :: a :: l. Proof. right; left. Qed.
Lemma in3 {X} (a b c : X) l : a ∈ b :: c :: a :: l. Proof. right; right; left. Qed.

Section fine.
Context {P : prims} (cfg : gconf P).
Notation cc := (gc_crypto cfg).
Notation T := (cc_threshold cc).

Lemma ref_init_conv : refines (m_is_init_convergent cfg) (pread (is_init_convergent cfg)).
Proof.
  intros s. apply L_rlock. intros s1 _. cbn [mbind msync mread]. apply L_rlock. intros s2 _. cbn [mbind]. apply L_rlock. intros s3 _. cbn [mbind].
  apply L_read. { intros s' Ha. f_equal. by apply (ag_tbl _ _ _ (OInit Rev) Ha); left; apply in3. }
  apply L_read. { intros s' Ha. f_equal. by apply (ag_tbl _ _ _ (OInit Sth) Ha); left; apply in2. }
  apply L_commit. intros s4 Ha. split; [done|]. split; [apply frame_refl|]. intros s5. cbn [snd mbind].
  apply L_runlock. intros ?. cbn [mbind]. apply L_runlock. intros ?. cbn [mbind]. apply L_runlock. intros ?. cbn. split; [done|]. unfold is_init_convergent.
  assert (t_rev_init s4 = t_rev_init s3) as -> by (apply (ag_tbl _ _ _ (OInit Rev) Ha); left; apply in3).
  assert (t_sth_init s4 = t_sth_init s3) as -> by (apply (ag_tbl _ _ _ (OInit Sth) Ha); left; apply in2). done.
Qed.
Lemma ref_conv : refines (m_is_convergent cfg) (pread (is_convergent cfg)).
Proof.
  intros s. apply L_rlock. intros s1 _. cbn [mbind msync mread]. apply L_rlock. intros s2 _. cbn [mbind]. apply L_rlock. intros s3 _. cbn [mbind].
  apply L_read. { intros s' Ha. f_equal. by apply (ag_tbl _ _ _ (OFull Rev) Ha); left; apply in3. }
  apply L_read. { intros s' Ha. f_equal. by apply (ag_tbl _ _ _ (OFull Sth) Ha); left; apply in2. }
  apply L_read. { intros s' Ha. f_equal. by apply (ag_tbl _ _ _ (OFull Acc) Ha); left; apply in1. }
  apply L_commit. intros s4 Ha. split; [done|]. split; [apply frame_refl|]. intros s5. cbn [snd mbind].
  apply L_runlock. intros ?. cbn [mbind]. apply L_runlock. intros ?. cbn [mbind]. apply L_runlock. intros ?. cbn. split; [done|]. unfold is_convergent.
  assert (t_rev_full s4 = t_rev_full s3) as -> by (apply (ag_tbl _ _ _ (OFull Rev) Ha); left; apply in3).
  assert (t_sth_full s4 = t_sth_full s3) as -> by (apply (ag_tbl _ _ _ (OFull Sth) Ha); left; apply in2).
  assert (t_acc_full s4 = t_acc_full s3) as -> by (apply (ag_tbl _ _ _ (OFull Acc) Ha); left; apply in1). done.
Qed.

Lemma ref_ras f g : refines (m_read_and_store cfg f g) (patomic (read_and_store cfg f g)).
Proof.
  intros s. apply L_lock. intros s1 _. cbn [mbind mread].
  assert (forall s', agree [(flock f, HW)] s1 s' -> get_object_list s' (get_id g) f = get_object_list s1 (get_id g) f) as Hl.
  { intros s' Ha. unfold get_object_list. by rewrite (ag_frags _ _ _ f Ha) by (right; left). }
  apply L_read. { intros s' Ha. by rewrite Hl. }
  cbn [mbind]. set (n0 := length (get_object_list s1 (get_id g) f)).
  destruct (Nat.ltb n0 T) eqn:El.
  - left. split; [|split].
    + intros s' Ha. lazy beta zeta iota delta [fst]. rewrite Hl by done. fold n0. by rewrite El.
    + intros s' Ha. lazy beta zeta iota delta [snd]. by rewrite Hl.
    + intros s' Ha. lazy beta zeta iota delta [snd]. fold n0. rewrite El. cbn [mbind]. apply L_read.
      { intros s2 Ha2. rewrite (Hl s'), (Hl s2); [done| |done]. eapply agree_trans; [apply HE|exact Ha|exact Ha2]. }
      cbn [mbind]. rewrite Hl by done. apply L_commit. intros s2 Ha2. cbn [fst snd].
      assert (get_object_list s2 (get_id g) f = get_object_list s1 (get_id g) f) as E2.
      { apply Hl. eapply agree_trans; [apply HE|exact Ha|exact Ha2]. }
      unfold read_and_store. rewrite E2. fold n0. rewrite El. cbn [fst snd]. split; [done|].
      split; [apply frame_w; intros; by apply same_set_frags|]. intros s3. apply L_unlock. done.
  - apply L_commit. intros s2 Ha. cbn [fst snd]. unfold read_and_store. rewrite Hl by done. fold n0. rewrite El. cbn [fst snd mbind]. split; [done|].
    split; [intros k _; apply same_trace|]. intros s3. apply L_unlock. done.
Qed.

Lemma ref_store_frag f g : refines
  (wlocked (flock f) (mdo l <- mread (λ s, get_object_list s (get_id g) f);
     mmodify (λ s, add_trace (set_frags s f (<[get_id g := (l ++ [g])%list]> (get_frags s f))) [EvStored g])))
  (pmodify (λ s, add_trace (set_frags s f (<[get_id g := (get_object_list s (get_id g) f ++ [g])%list]> (get_frags s f))) [EvStored g])).
Proof.
  intros s. apply L_lock. intros s1 _. cbn [mbind mread].
  assert (forall s', agree [(flock f, HW)] s1 s' -> get_object_list s' (get_id g) f = get_object_list s1 (get_id g) f) as Hl.
  { intros s' Ha. unfold get_object_list. by rewrite (ag_frags _ _ _ f Ha) by (right; left). }
  apply L_read; [done|]. cbn [mbind]. apply L_commit. intros s2 Ha. cbn [fst snd]. rewrite Hl by done. split; [done|].
  split; [apply frame_w; intros; by apply same_set_frags|]. intros s3. apply L_unlock. done.
Qed.

Lemma rb {A B} (m : gmprog A) (mk : A -> gmprog B) p pk :
  refines m p -> (forall a, refines (mk a) (pk a)) -> refines (mbind m mk) (pbind p pk).
Proof. apply ref_bind. Qed.
Lemma rr {A} (a : A) : refines (MRet a) (Ret a : gprog A).
Proof. done. Qed.
Lemma rskip : refines mskip pskip.
Proof. done. Qed.
Lemma rw_ b m p : refines m p -> refines (mwhen b m) (pwhen b p).
Proof. by destruct b. Qed.
Lemma rtrace l : refines (mmodify (λ s, add_trace s l)) (pmodify (λ s, add_trace s l)).
Proof. apply ref_modify. intros. apply same_trace. Qed.
Lemma rread {X} (r : gst -> X) : refines (mread r) (pread r).
Proof. apply ref_read, HE. Qed.

Lemma ref_black e : refines (m_add_blacklist e) (add_blacklist e).
Proof. apply rb; [apply ref_rlocked1|]. intros b. apply rw_, ref_wlocked. intros. by apply same_set_black. Qed.
Lemma ref_note : refines (m_note_init_convergence cfg) (note_init_convergence cfg).
Proof. apply rb; [apply ref_init_conv|]. intros b. apply rw_, ref_modify. intros. apply same_conv_init. Qed.
Lemma ref_store g : refines (m_store cfg g) (store cfg g).
Proof.
  unfold m_store, store. destruct (verify cc g); [|apply rr|done].
  destruct (obj_kind g) as [[f| |f]|f|] eqn:Ek; [| | | |apply rr].
  - apply rb; [by apply ref_insert|]. intros []; cbn [negb]; [|apply rr]. apply rb; [apply ref_note|]. intros _. apply rr.
  - apply rb; [by apply ref_insert|]. intros []; cbn [negb]; [|apply rr]. apply rb; [apply ref_black|]. intros _. apply rb; [apply ref_note|]. intros _. apply rr.
  - apply rb; [apply ref_wlocked; intros; by apply same_tr, same_set_tbl|]. intros _. apply rb; [apply rw_, ref_black|]. intros _. apply rr.
  - apply rb; [apply ref_store_frag|]. intros _. apply rr.
Qed.
Lemma ref_gfrag g : refines (m_generate_frag cfg g) (generate_frag cfg g).
Proof. unfold m_generate_frag, generate_frag. destruct (cc_thr_sign cc (signed_msg g)); [|done]. apply rb; [apply rtrace|]. intros _. apply rr. Qed.
Lemma ref_gfull l ty : refines (m_generate_full cfg l ty) (generate_full cfg l ty).
Proof.
  unfold m_generate_full, generate_full. destruct (cc_thr_aggregate cc _); [|done]. destruct l; [done|]. apply rb; [apply rread|]. intros. apply rr.
Qed.
Lemma ref_save g : refines (m_save_payload cfg g) (save_payload cfg g).
Proof. unfold m_save_payload, save_payload. destruct (verify cc g); try done. apply ref_wlocked. intros. by apply same_set_payload. Qed.
Lemma ref_mal f g : f <> Acc -> obj_kind g = KObj (OInit f) -> refines (m_is_malicious f g) (pread (λ s, is_malicious s g)).
Proof. intros Hf Hk. apply ref_rlocked. intros s. unfold is_malicious. rewrite Hk. by destruct f. Qed.

Section handlers.
Context (mrec : gobj -> gmprog unit) (rec : gobj -> gprog unit) (Hrec : forall g, refines (mrec g) (rec g)).
Lemma ref_hinit f g : f <> Acc -> obj_kind g = KObj (OInit f) -> refines (m_handle_init cfg mrec f g) (handle_init cfg rec f g).
Proof.
  intros Hf Hk. apply rb; [apply ref_rlocked1|]. intros n1. destruct (Nat.ltb 0 n1); [apply rskip|].
  apply rb; [apply ref_rlocked1|]. intros n2. destruct (Nat.leb T n2); [apply rskip|].
  apply rb; [by apply ref_mal|]. intros [].
  - apply rb; [apply ref_rlocked1|]. intros o1. apply rb; [apply rread|]. intros now. apply Hrec.
  - apply rb; [apply ref_store|]. intros []; cbn [negb]; [|apply rskip]. apply rb; [apply rtrace|]. intros _. apply rb; [apply rtrace|]. intros _. apply ref_fork.
Qed.
Lemma ref_hacc g : refines (m_handle_acc_init cfg mrec g) (handle_acc_init cfg rec g).
Proof.
  apply rb; [apply ref_rlocked1|]. intros n1. destruct (Nat.ltb 0 n1); [apply rskip|].
  apply rb; [apply ref_rlocked1|]. intros n2. destruct (Nat.leb T n2); [apply rskip|].
  apply rb; [apply ref_store|]. intros []; cbn [negb]; [|apply rskip]. apply rb; [apply ref_rlocked1|]. intros []; [apply rskip|].
  apply rb; [apply ref_gfrag|]. intros fr. apply Hrec.
Qed.
Lemma ref_hcon g : refines (m_handle_con cfg g) (handle_con cfg g).
Proof.
  apply rb; [apply ref_rlocked1|]. intros n. destruct (Nat.eqb n 0); [|apply rskip].
  apply rb; [apply ref_store|]. intros []; cbn [negb]; [|apply rskip]. apply rb; [apply rtrace|]. intros _. apply rtrace.
Qed.
Lemma ref_hfrag f g : refines (m_handle_frag cfg mrec f g) (handle_frag cfg rec f g).
Proof.
  apply rb; [apply ref_rlocked1|]. intros n. destruct (Nat.ltb 0 n); [apply rskip|].
  apply rb; [apply ref_ras|]. intros before. apply rb; [|intros _; apply rw_, rtrace].
  destruct (Nat.eqb (S before) T); [|apply rskip]. apply rb; [apply ref_rlocked1|]. intros l. apply rb; [apply ref_gfull|]. intros full.
  apply rb; [apply rtrace|]. intros _. apply Hrec.
Qed.
Lemma ref_hfull f g : refines (m_handle_full cfg f g) (handle_full cfg f g).
Proof.
  apply rb; [apply ref_rlocked1|]. intros []; [apply rskip|]. apply rb; [apply ref_rlocked1|]. intros n. apply rb.
  - destruct (Nat.eqb n 0); [|apply rskip]. apply rb; [apply ref_store|]. intros _. apply rtrace.
  - intros _. apply rb; [apply ref_conv|]. intros b. apply rw_, ref_modify. intros. apply same_conv.
Qed.
Lemma ref_body g : refines (m_handle_body cfg mrec g) (handle_body cfg rec g).
Proof.
  apply rb; [apply ref_dup|]. intros []; [apply rskip|]. apply rb; [apply ref_rlocked1|]. intros []; [apply rskip|].
  destruct (obj_kind g) as [[[]| |f]|f|] eqn:Ek; [by apply ref_hinit|by apply ref_hinit|apply ref_hacc|apply ref_hcon|apply ref_hfull|apply ref_hfrag|apply rskip].
Qed.
End handlers.

Lemma ref_handle_n n g : refines (m_handle_n cfg n g) (handle_n cfg n g).
Proof. revert g. induction n as [|n IH]; intros g; [done|]. apply ref_body, IH. Qed.
Lemma ref_task t : refines (m_start_task cfg t) (start_task cfg t).
Proof.
  destruct t as [g]. apply rb; [apply ref_rlocked1|]. intros []; [apply rskip|]. apply rb; [apply ref_gfrag|]. intros fr. apply ref_handle_n.
Qed.
Lemma ref_object n g : refines (m_object_handler cfg n g) (object_handler cfg n g).
Proof.
  apply rb; [apply rw_, ref_save|]. intros _. destruct (gc_opt_mode cfg && _); [|apply ref_handle_n].
  apply rb; [by apply ref_rlocked|]. intros g'. apply ref_handle_n.
Qed.
Lemma ref_notif n : refines (m_notification_handler cfg n) (notification_handler cfg n).
Proof.
  unfold m_notification_handler, notification_handler.
  intros s. apply L_rlock. intros s1 _. cbn [mbind mread]. apply L_commit. intros s2 _. split; [done|]. split; [apply frame_refl|].
  intros s3. apply L_runlock. intros s4. cbn [snd mbind pbind]. apply (rw_ _ _ _ (rtrace _)).
Qed.
Lemma ref_request n : refines (m_request_handler n) (request_handler n).
Proof.
  intros s. apply L_rlock. intros s1 _. cbn [mbind mread].
  destruct (t_payload s1 !! mkgid (n_period n) REV_INIT (n_entity n)) as [o|] eqn:Eo.
  - apply L_read.
    { intros s' Ha. by rewrite (ag_pay _ _ _ Ha) by (left; left). }
    rewrite bool_decide_eq_true_2 by (rewrite Eo; eauto). cbn [mbind]. apply L_commit. intros s2 _. split; [done|]. split; [apply frame_refl|].
    intros s3. apply L_runlock. intros s4. cbn [snd mbind pbind]. apply (rw_ _ _ _ (rtrace _)).
  - apply L_commit. intros s2 Ha. split; [done|]. split; [apply frame_refl|]. intros s3. cbn [snd].
    unfold obj_at. rewrite (ag_pay _ _ _ Ha) by (left; left). rewrite Eo, bool_decide_eq_false_2 by (by intros []). cbn [mbind].
    apply L_runlock. intros s4. cbn [snd mbind pbind]. apply (rw_ _ _ _ (rtrace _)).
Qed.

(** Every run with single accesses is matched by one with atomic critical sections. *)
Lemma fine_sim Dl a b d c : fine_steps cfg Dl (fine_init a b d) c ->
  f_dead c = false /\ exists c', psteps (start_task cfg) (no_wipe cfg Dl) clock_step (init_pool a b d) c' /\
    p_st c' = f_st c /\ p_tasks c' = f_tasks c /\ p_crashes c' = f_crashes c /\ length (p_threads c') = length (f_threads c).
Proof.
  intros H. eapply (simulation same HE _ _ (start_task cfg) (no_wipe cfg Dl)) in H; cycle 1.
  - apply ref_task.
  - intros m [n g Hg|n|n]; eexists; (split; [by econstructor|]); [apply ref_object|apply ref_notif|apply ref_request].
  - intros s s' k Hs. by apply same_clock.
  - apply related_new.
  - destruct H as (c'&Hc&E1&E2&E3&E4&hs&_&HF). split; [done|]. exists c'. repeat split; try done.
    pose proof (Forall3_length_lm _ _ _ _ HF). pose proof (Forall3_length_lr _ _ _ _ HF). congruence.
Qed.
End fine.
