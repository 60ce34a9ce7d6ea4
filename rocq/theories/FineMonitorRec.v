(** A monitor whose goroutines interleave: recorded vectors and accusations. *)
From Verif Require Import Bytes Types Crypto Verify VerifyFacts Bitset Revocation Clock Monitor MonitorMore FineMonitor SpecFineMonitor FineMonitorFacts FineMonitorMore.
From Coq Require Import Lia.
Open Scope string_scope.

Section facts.
Context {P : prims} (z : gzip) (c : mconf (P := P)).
Notation step := (fstep z c).
Notation run := (frun z c).

Lemma crv_tset t s v : m_crv (tset t s v) = m_crv s.
Proof. by destruct s, t. Qed.

(** ** A general induction: a property of goroutines, timers and vectors that events keep. *)
Definition next_ok (Q : goro -> Prop) (a : option goro) : Prop := match a with Some a => Q a | None => True end.

(** *** Vectors *)
Section vector.
Variables (ca : string) (d : bitset).

Definition vok (a : goro) : Prop := match a with GCrvSet x _ => x <> ca | _ => True end.

Lemma valid_vok g : next_ok vok (fst (valid c g)).
Proof. unfold valid. by destruct (obj_kind g) as [[[]| |[]]|[]|]. Qed.
Lemma answer_vok w e b : next_ok vok (fst (answer w e b)).
Proof. destruct w as [ok| |f r]; cbn; [by destruct (_ && _)|by destruct b|by destruct r]. Qed.

Lemma loop_next (Q : goro -> Prop) s j todo seen rest u m stamp k s' b o :
  (forall j t s r u, Q (GLoop j t s r u)) -> (forall j i t s r u, Q (GLook j i t s r u)) -> (forall j i t s r u, Q (GDel j i t s r u)) -> (forall u, Q (GPeriod u)) ->
  gstep z c s (GLoop j todo seen rest u) m stamp k = Some (s', (b, o)) -> s' = s /\ o = [] /\ next_ok Q b.
Proof.
  intros Q1 Q2 Q3 Q4. cbn [gstep]. intros E. injection E as <- <- <-. split_and!; [done|done|]. cbn.
  assert (B : Q (begin rest u s)) by (destruct rest; cbn; auto).
  destruct (bool_decide (k ∈ seen)).
  - match goal with |- context [@bool_decide (todo = ∅) ?d] => destruct (@bool_decide (todo = ∅) d) end; auto.
  - destruct (tget (jtab j) s !! k).
    + destruct j; auto. destruct (String.eqb _ _); auto.
    + match goal with |- context [@bool_decide (todo = ∅) ?d] => destruct (@bool_decide (todo = ∅) d) end; auto.
Qed.

Lemma gstep_vok s a m stamp k s' b o : m_crv s !! ca = Some d -> vok a -> gstep z c s a m stamp k = Some (s', (b, o)) -> m_crv s' !! ca = Some d /\ next_ok vok b.
Proof.
  intros D V E.
  destruct a as [g|g|g|g|x dd|x dd|url g|x f|w x|w x|x|j todo seen rest u|j i todo seen rest u|j i todo seen rest u|u|u].
  - cbn [gstep] in E. injection E as <- E. split; [done|]. pose proof (valid_vok g) as H. destruct (is_duplicate s g); [by injection E as <- _|].
    destruct (obj_kind g) as [[[]| |[]]|[]|]; try (by injection E as <- _); rewrite E in H; exact H.
  - cbn [gstep] in E. injection E as E. destruct (obj_kind g) as [[[]| |[]]|[]|]; injection E as <- <- _; rewrite ?crv_tset; by split.
  - cbn [gstep] in E. injection E as <- <- _. rewrite crv_tset. by split.
  - cbn [gstep] in E. injection E as <- <- _. by split.
  - cbn [gstep] in E. injection E as <- <- _. split; [done|]. destruct (m_crv s !! x) eqn:X; [done|]. intros ->. congruence.
  - cbn [gstep vok] in *. injection E as <- <- _. split; [|done]. cbn. by rewrite lookup_insert_ne.
  - cbn [gstep] in E. destruct (check_rev z c s g); [| |done].
    + injection E as <- E. split; [done|]. pose proof (valid_vok g) as H. by rewrite E in H.
    + injection E as <- <- _. by split.
  - cbn [gstep] in E. injection E as <- <- _. by split.
  - cbn [gstep] in E. injection E as <- E. split; [done|]. pose proof (answer_vok w x true) as H. destruct (bool_decide _); [by rewrite E in H|by injection E as <- _].
  - cbn [gstep] in E. injection E as <- E. split; [done|]. pose proof (answer_vok w x (bool_decide (is_Some (m_con s !! con_key x)))) as H. by rewrite E in H.
  - cbn [gstep] in E. injection E as <- <- _. by split.
  - apply (loop_next vok) in E as (-> & _ & H); by try split.
  - cbn [gstep] in E. injection E as <- <- _. split; [done|]. by destruct (bool_decide _).
  - cbn [gstep] in E. injection E as <- <- _. rewrite crv_tset. by split.
  - cbn [gstep] in E. injection E as <- <- _. by split.
  - cbn [gstep] in E. injection E as <- <- _. by split.
Qed.

Lemma fstep_vok y e y' o : m_crv (fm_st y) !! ca = Some d -> Forall vok (fm_go y) -> step y e = Some (y', o) ->
  m_crv (fm_st y') !! ca = Some d /\ Forall vok (fm_go y').
Proof.
  intros D V E. assert (Sp : forall a, next_ok vok a -> Forall vok (fm_go (spawn y a))).
  { intros a H. cbn. apply Forall_app. split; [done|]. destruct a; by repeat constructor. }
  destruct e as [g|f|f url r|n| |n m stamp k]; cbn [fstep] in E.
  - injection E as <- _. split; [done|]. by apply Sp.
  - injection E as <- _. split; [done|]. apply Sp. by destruct f; destruct (_ : list string).
  - unfold on_reply in E. destruct r as [g|]; [|by injection E as <- _]. pose proof (valid_vok g) as H.
    destruct (verify (mc_crypto c) g); [destruct f; injection E as <- _; (split; [done|]); by apply Sp|by injection E as <- _|done].
  - destruct (m_timers (fm_st y) !! n) as [t|]; injection E as <- _; [|done]. split; [done|]. cbn. apply Forall_app. split; [done|].
    constructor; [|by constructor]. by destruct t.
  - injection E as <- _. split; [done|]. by apply Sp.
  - destruct (fm_go y !! n) as [a|] eqn:G; [|by injection E as <- _].
    destruct (gstep z c (fm_st y) a m stamp k) as [[s [b o1]]|] eqn:H; [|done]. injection E as <- _.
    destruct (gstep_vok _ _ _ _ _ _ _ _ D (Forall_lookup_1 _ _ _ _ V G) H) as [D' B]. split; [done|]. cbn. destruct b; [by apply Forall_insert|by apply Forall_delete].
Qed.

Lemma fine_vector l y y' o : m_crv (fm_st y) !! ca = Some d -> (forall x, GCrvSet ca x ∉ fm_go y) -> run y l = Some (y', o) -> m_crv (fm_st y') !! ca = Some d.
Proof.
  intros D N R. assert (V : Forall vok (fm_go y)).
  { apply Forall_forall. intros a A. destruct a; try done. intros ->. by eapply N. }
  clear N. revert y o D V R. induction l as [|e l IH]; intros y o D V; cbn [frun]; [by intros [= <- _]|].
  destruct (step y e) as [[y1 o1]|] eqn:S; [|done]. destruct (run y1 l) as [[y2 o2]|] eqn:Q; [|done]. intros [= <- _].
  destruct (fstep_vok _ _ _ _ D V S). by eapply IH.
Qed.
End vector.

(** *** Where vectors come from *)
Definition rok (l : list fevent) (a : goro) : Prop := match a with GCrvLook x d | GCrvSet x d => recorded_of z l x d | GArm g => g_type g = REV_FULL /\ freceived l g | GDup g | GStore g | GSrh _ g => freceived l g | _ => True end.
Definition tok (l : list fevent) (t : timer) : Prop := match t with TCrv x d => recorded_of z l x d | _ => True end.
Definition sokr (l : list fevent) (s : mst) : Prop := Forall (tok l) (m_timers s) /\ map_Forall (recorded_of z l) (m_crv s).

Lemma recorded_more l e x d : recorded_of z l x d -> recorded_of z (l ++ [e]) x d.
Proof. intros (g & R & H). exists g. split; [by apply received_more|done]. Qed.
Lemma rok_more l e a : rok l a -> rok (l ++ [e]) a.
Proof. destruct a; cbn; try done; try apply recorded_more; try apply received_more. intros [H1 H2]. split; [done|by apply received_more]. Qed.
Lemma sokr_more l e s : sokr l s -> sokr (l ++ [e]) s.
Proof.
  intros [A B]. split; [eapply Forall_impl; [exact A|]; intros []; cbn; [apply recorded_more|done]|].
  intros i d D. apply recorded_more. by apply B.
Qed.

Lemma valid_rok l g : freceived l g -> next_ok (rok l) (fst (valid c g)).
Proof. unfold valid. intros R. by destruct (obj_kind g) as [[[]| |[]]|[]|]. Qed.
Lemma answer_rok l w e b : next_ok (rok l) (fst (answer w e b)).
Proof. destruct w as [ok| |f r]; cbn; [by destruct (_ && _)|by destruct b|by destruct r]. Qed.

Lemma sokr_same l s s' : m_timers s' = m_timers s -> m_crv s' = m_crv s -> sokr l s -> sokr l s'.
Proof. intros E1 E2 [A B]. split; [by rewrite E1|by rewrite E2]. Qed.

Lemma gstep_rok l s a m stamp k s' b o : sokr l s -> rok l a -> gstep z c s a m stamp k = Some (s', (b, o)) -> sokr l s' /\ next_ok (rok l) b.
Proof.
  intros S V E.
  destruct a as [g|g|g|g|x dd|x dd|url g|x f|w x|w x|x|j todo seen rest u|j i todo seen rest u|j i todo seen rest u|u|u].
  - cbn [gstep] in E. injection E as <- E. split; [done|]. pose proof (valid_rok l g V) as H. destruct (is_duplicate s g); [by injection E as <- _|].
    destruct (obj_kind g) as [[[]| |[]]|[]|]; try (by injection E as <- _); rewrite E in H; exact H.
  - cbn [gstep] in E. injection E as E. destruct (obj_kind g) as [[[]| |[]]|[]|] eqn:K; injection E as <- <- _;
      (split; [eapply sokr_same; [..|exact S]; rewrite ?timers_tset, ?crv_tset; done|]); try done. cbn. apply obj_kind_obj in K. by split.
  - cbn [gstep] in E. injection E as <- <- _. split; [|done]. eapply sokr_same; [..|exact S]; rewrite ?timers_tset, ?crv_tset; done.
  - cbn [gstep] in E. injection E as <- <- _. split; [|done]. destruct S as [S1 S2]. split; [|done]. cbn. apply Forall_app. split; [done|].
    constructor; [|by constructor]. destruct V as [V1 V2]. by exists g.
  - cbn [gstep] in E. injection E as <- <- _. split; [done|]. by destruct (m_crv s !! x).
  - cbn [gstep] in *. injection E as <- <- _. split; [|done]. destruct S as [S1 S2]. split; [done|]. cbn. by apply map_Forall_insert_2.
  - cbn [gstep] in E. destruct (check_rev z c s g); [| |done].
    + injection E as <- E. split; [done|]. pose proof (valid_rok l g V) as H. by rewrite E in H.
    + injection E as <- <- _. split; [|done]. destruct S as [S1 S2]. split; [|done]. cbn. apply Forall_app. split; [done|]. by repeat constructor.
  - cbn [gstep] in E. injection E as <- <- _. by split.
  - cbn [gstep] in E. injection E as <- E. split; [done|]. pose proof (answer_rok l w x true) as H. destruct (bool_decide _); [by rewrite E in H|by injection E as <- _].
  - cbn [gstep] in E. injection E as <- E. split; [done|]. pose proof (answer_rok l w x (bool_decide (is_Some (m_con s !! con_key x)))) as H. by rewrite E in H.
  - cbn [gstep] in E. injection E as <- <- _. by split.
  - apply (loop_next (rok l)) in E as (-> & _ & H); by try split.
  - cbn [gstep] in E. injection E as <- <- _. split; [done|]. by destruct (bool_decide _).
  - cbn [gstep] in E. injection E as <- <- _. split; [|done]. eapply sokr_same; [..|exact S]; rewrite ?timers_tset, ?crv_tset; done.
  - cbn [gstep] in E. injection E as <- <- _. by split.
  - cbn [gstep] in E. injection E as <- <- _. by split.
Qed.

Lemma fstep_rok l y e y' o : sokr l (fm_st y) -> Forall (rok l) (fm_go y) -> step y e = Some (y', o) -> sokr (l ++ [e]) (fm_st y') /\ Forall (rok (l ++ [e])) (fm_go y').
Proof.
  intros S0 V0 E. assert (S : sokr (l ++ [e]) (fm_st y)) by by apply sokr_more.
  assert (V : Forall (rok (l ++ [e])) (fm_go y)) by (eapply Forall_impl; [exact V0|]; intros; by apply rok_more).
  assert (L : e ∈ (l ++ [e])%list) by (apply elem_of_app; right; by left).
  assert (Sp : forall a, next_ok (rok (l ++ [e])) a -> Forall (rok (l ++ [e])) (fm_go (spawn y a))).
  { intros a H. cbn. apply Forall_app. split; [done|]. destruct a; by repeat constructor. }
  destruct e as [g|f|f url r|n| |n m stamp k]; cbn [fstep] in E.
  - injection E as <- _. split; [done|]. apply Sp. exists (FGossip g). split; [done|by left].
  - injection E as <- _. split; [done|]. apply Sp. by destruct f; destruct (_ : list string).
  - unfold on_reply in E.
    assert (B : sokr (l ++ [FReply f url r]) (wait_then_accuse (fm_st y) url f)).
    { destruct S as [S1 S2]. split; [|done]. cbn. apply Forall_app. split; [done|]. by repeat constructor. }
    destruct r as [g|]; [|by injection E as <- _].
    assert (R : freceived (l ++ [FReply f url (Some g)]) g) by (exists (FReply f url (Some g)); split; [done|right; by exists f, url]).
    pose proof (valid_rok _ g R) as H.
    destruct (verify (mc_crypto c) g); [destruct f; injection E as <- _; (split; [done|]); by apply Sp|by injection E as <- _|done].
  - destruct (m_timers (fm_st y) !! n) as [t|] eqn:T; injection E as <- _; [|done]. destruct S as [S1 S2]. split.
    + split; [|done]. cbn. by apply Forall_delete.
    + cbn. apply Forall_app. split; [done|]. constructor; [|by constructor]. pose proof (Forall_lookup_1 _ _ _ _ S1 T). by destruct t.
  - injection E as <- _. split; [done|]. by apply Sp.
  - destruct (fm_go y !! n) as [a|] eqn:G; [|by injection E as <- _].
    destruct (gstep z c (fm_st y) a m stamp k) as [[s [b o1]]|] eqn:H; [|done]. injection E as <- _.
    destruct (gstep_rok _ _ _ _ _ _ _ _ _ S (Forall_lookup_1 _ _ _ _ V G) H) as [D' B]. split; [done|]. cbn. destruct b; [by apply Forall_insert|by apply Forall_delete].
Qed.

Lemma fine_recorded l y o ca d : run fm_init l = Some (y, o) -> m_crv (fm_st y) !! ca = Some d -> recorded_of z l ca d.
Proof.
  intros R D. cut (sokr l (fm_st y) /\ Forall (rok l) (fm_go y)); [intros [[_ H] _]; by apply H|]. clear D. revert y o R.
  induction l as [|e l IH] using rev_ind; intros y o E.
  - injection E as <- <-. split; [split; [constructor|apply map_Forall_empty]|constructor].
  - rewrite frun_snoc in E. destruct (run fm_init l) as [[y1 o1]|] eqn:R; [|done]. destruct (step y1 e) as [[y2 o2]|] eqn:S; [|done]. injection E as <- <-.
    destruct (IH _ _ eq_refl). by eapply fstep_rok.
Qed.

(** *** Accusations *)
Definition aok (l : list fevent) (a : goro) : Prop :=
  match a with
  | GPomA w e | GPomC w e => match w with First false | Second => was_missing z c l e | _ => True end
  | GAccuse e => was_missing z c l e
  | _ => True
  end.
Definition no_accuse (l : list fevent) (o : list fout) : Prop := forall x, 0 < accusations x o -> was_missing z c l x.

Lemma missing_more l e x : was_missing z c l x -> was_missing z c (l ++ [e]) x.
Proof.
  intros (l1 & l2 & y & o & f & n & m & st & k & E & H). exists l1, (l2 ++ [e])%list, y, o, f, n, m, st, k. split; [|done]. rewrite E, <- app_assoc. done.
Qed.
Lemma aok_more l e a : aok l a -> aok (l ++ [e]) a.
Proof. destruct a; cbn; try done; try apply missing_more; destruct w as [[]| |]; try done; apply missing_more. Qed.

Lemma valid_aok l g : next_ok (aok l) (fst (valid c g)).
Proof. unfold valid. by destruct (obj_kind g) as [[[]| |[]]|[]|]. Qed.
Lemma answer_aok l w e b : aok l (GPomC w e) -> next_ok (aok l) (fst (answer w e b)).
Proof. destruct w as [ok| |f r]; cbn; [|by destruct b|by destruct r]. destruct b, ok; cbn; done. Qed.

Lemma acc_nil x : accusations x [] = 0.
Proof. done. Qed.
Lemma acc_app x o1 o2 : accusations x (o1 ++ o2) = accusations x o1 + accusations x o2.
Proof. apply filter_len_app. Qed.
Lemma valid_noacc x g : accusations x (snd (valid c g)) = 0.
Proof. apply (valid_count c x g). Qed.
Lemma answer_noacc x w e b : accusations x (snd (answer w e b)) = 0.
Proof. destruct w as [ok| |f r]; cbn; [done|done|by destruct b]. Qed.

Lemma gstep_aok l s a m stamp k s' b o : (forall e f, a = GTemp e f -> m_temp s !! mkgid (pad2 m) (init_type f) e = None -> was_missing z c l e) ->
  aok l a -> gstep z c s a m stamp k = Some (s', (b, o)) -> next_ok (aok l) b /\ no_accuse l o.
Proof.
  intros T V E. assert (N : no_accuse l []) by (intros x; rewrite acc_nil; lia).
  destruct a as [g|g|g|g|x dd|x dd|url g|x f|w x|w x|x|j todo seen rest u|j i todo seen rest u|j i todo seen rest u|u|u].
  - cbn [gstep] in E. injection E as _ E. destruct (is_duplicate s g); [by injection E as <- <-|]. pose proof (valid_aok l g) as H. pose proof (λ x, valid_noacc x g) as Z.
    destruct (obj_kind g) as [[[]| |[]]|[]|]; try (by injection E as <- <-); rewrite E in H, Z; cbn [snd] in Z; (split; [exact H|]); intros x; rewrite (Z x); lia.
  - cbn [gstep] in E. injection E as E. destruct (obj_kind g) as [[[]| |[]]|[]|]; by injection E as _ <- <-.
  - cbn [gstep] in E. by injection E as _ <- <-.
  - cbn [gstep] in E. by injection E as _ <- <-.
  - cbn [gstep] in E. injection E as _ <- <-. split; [|done]. by destruct (m_crv s !! x).
  - cbn [gstep] in E. by injection E as _ <- <-.
  - cbn [gstep] in E. destruct (check_rev z c s g); [| |done].
    + injection E as _ E. pose proof (valid_aok l g) as H. pose proof (λ x, valid_noacc x g) as Z. rewrite E in H, Z. cbn [snd] in Z. split; [exact H|]. intros x. rewrite (Z x). lia.
    + by injection E as _ <- <-.
  - cbn [gstep] in E. injection E as _ <- <-. split; [|done]. cbn. destruct (bool_decide _) eqn:D; [done|]. apply bool_decide_eq_false in D.
    apply (T x f eq_refl). by apply eq_None_not_Some.
  - cbn [gstep] in E. injection E as _ E. destruct (bool_decide _).
    + pose proof (answer_aok l w x true V) as H. pose proof (λ q, answer_noacc q w x true) as Z. rewrite E in H, Z. cbn [snd] in Z. split; [exact H|]. intros q. rewrite (Z q). lia.
    + by injection E as <- <-.
  - cbn [gstep] in E. injection E as _ E. pose proof (answer_aok l w x (bool_decide (is_Some (m_con s !! con_key x))) V) as H.
    pose proof (λ q, answer_noacc q w x (bool_decide (is_Some (m_con s !! con_key x)))) as Z. rewrite E in H, Z. cbn [snd] in Z. split; [exact H|]. intros q. rewrite (Z q). lia.
  - cbn [gstep] in E. injection E as _ <- <-. split; [done|]. intros q. unfold accusations. cbn. destruct (String.eqb_spec x q) as [->|]; [done|cbn; lia].
  - apply (loop_next (aok l)) in E as (_ & -> & H); by try split.
  - cbn [gstep] in E. injection E as _ <- <-. split; [|done]. by destruct (bool_decide _).
  - cbn [gstep] in E. by injection E as _ <- <-.
  - cbn [gstep] in E. by injection E as _ <- <-.
  - cbn [gstep] in E. injection E as _ <- <-. split; [done|]. intros q. unfold accusations. cbn. lia.
Qed.

Lemma fine_missing_inv l y o : run fm_init l = Some (y, o) -> Forall (aok l) (fm_go y) /\ no_accuse l o.
Proof.
  revert y o. induction l as [|e l IH] using rev_ind; intros y' o' R'.
  { injection R' as <- <-. split; [constructor|]. intros x. rewrite acc_nil. lia. }
  rewrite frun_snoc in R'. destruct (run fm_init l) as [[y o]|] eqn:R; [|done]. destruct (step y e) as [[y2 o2]|] eqn:E; [|done]. injection R' as <- <-.
  destruct (IH _ _ eq_refl) as [V0 O0].
  assert (V : Forall (aok (l ++ [e])) (fm_go y)) by (eapply Forall_impl; [exact V0|]; intros; by apply aok_more).
  cut (Forall (aok (l ++ [e])) (fm_go y2) /\ no_accuse (l ++ [e]) o2).
  { intros [H1 H2]. split; [done|]. intros x. rewrite acc_app. intros H. destruct (accusations x o) eqn:A; [apply H2; lia|]. apply missing_more. apply O0. lia. }
  assert (N : no_accuse (l ++ [e]) []) by (intros x; rewrite acc_nil; lia).
  assert (Sp : forall a, next_ok (aok (l ++ [e])) a -> Forall (aok (l ++ [e])) (fm_go (spawn y a))).
  { intros a H. cbn. apply Forall_app. split; [done|]. destruct a; by repeat constructor. }
  destruct e as [g|f|f url r|n| |n m stamp k]; cbn [fstep] in E.
  - injection E as <- <-. split; [|done]. by apply Sp.
  - injection E as <- <-. split; [|done]. apply Sp. by destruct f; destruct (_ : list string).
  - unfold on_reply in E. destruct r as [g|]; [|by injection E as <- <-]. pose proof (valid_aok (l ++ [FReply f url (Some g)]) g) as H.
    assert (Z : no_accuse (l ++ [FReply f url (Some g)]) (snd (valid c g))) by (intros x; rewrite valid_noacc; lia).
    destruct (verify (mc_crypto c) g); [destruct f; injection E as <- <-; (split; [by apply Sp|done])|by injection E as <- <-|done].
  - destruct (m_timers (fm_st y) !! n) as [t|] eqn:T; injection E as <- <-; [|done]. split; [|done].
    cbn. apply Forall_app. split; [done|]. constructor; [|by constructor]. by destruct t.
  - injection E as <- <-. split; [|done]. by apply Sp.
  - destruct (fm_go y !! n) as [a|] eqn:G; [|by injection E as <- <-].
    destruct (gstep z c (fm_st y) a m stamp k) as [[s [b o1]]|] eqn:H; [|done]. injection E as <- <-.
    assert (M : forall x f, a = GTemp x f -> m_temp (fm_st y) !! mkgid (pad2 m) (init_type f) x = None -> was_missing z c (l ++ [FStep n m stamp k]) x).
    { intros x f -> M. exists l, [], y, o, f, n, m, stamp, k. done. }
    destruct (gstep_aok _ _ _ _ _ _ _ _ _ M (Forall_lookup_1 _ _ _ _ V G) H) as [B1 B2].
    split; [|done]. cbn. destruct b; [by apply Forall_insert|by apply Forall_delete].
Qed.

Lemma fine_missing l y o x : run fm_init l = Some (y, o) -> 0 < accusations x o -> was_missing z c l x.
Proof. intros R H. destruct (fine_missing_inv l y o R) as [_ N]. exact (N x H). Qed.

(** *** Nobody with a known conflict is accused *)
Section convicted.
Variable x : string.
Definition cok (a : goro) : Prop := a <> GAccuse x.

Lemma valid_cok g : next_ok cok (fst (valid c g)).
Proof. unfold valid. by destruct (obj_kind g) as [[[]| |[]]|[]|]. Qed.

Lemma answer_cok w e b : (e = x -> b = true) -> next_ok cok (fst (answer w e b)).
Proof.
  destruct w as [ok| |f r]; cbn; [by destruct (_ && _)| |by destruct r]. intros H. destruct b; [done|]. intros [= ->]. by specialize (H eq_refl).
Qed.

Lemma gstep_cok s a m stamp k s' b o : is_Some (m_con s !! con_key x) -> cok a -> gstep z c s a m stamp k = Some (s', (b, o)) -> next_ok cok b /\ accusations x o = 0.
Proof.
  intros Co V E.
  destruct a as [g|g|g|g|q dd|q dd|url g|q f|w q|w q|q|j todo seen rest u|j i todo seen rest u|j i todo seen rest u|u|u].
  - cbn [gstep] in E. injection E as _ E. destruct (is_duplicate s g); [by injection E as <- <-|]. pose proof (valid_cok g) as H. pose proof (valid_noacc x g) as Z.
    destruct (obj_kind g) as [[[]| |[]]|[]|]; try (by injection E as <- <-); rewrite E in H, Z; by split.
  - cbn [gstep] in E. injection E as E. destruct (obj_kind g) as [[[]| |[]]|[]|]; by injection E as _ <- <-.
  - cbn [gstep] in E. by injection E as _ <- <-.
  - cbn [gstep] in E. by injection E as _ <- <-.
  - cbn [gstep] in E. injection E as _ <- <-. split; [|done]. by destruct (m_crv s !! q).
  - cbn [gstep] in E. by injection E as _ <- <-.
  - cbn [gstep] in E. destruct (check_rev z c s g); [| |done].
    + injection E as _ E. pose proof (valid_cok g) as H. pose proof (valid_noacc x g) as Z. rewrite E in H, Z. by split.
    + by injection E as _ <- <-.
  - cbn [gstep] in E. by injection E as _ <- <-.
  - cbn [gstep] in E. injection E as _ E. destruct (bool_decide _).
    + pose proof (answer_cok w q true (λ _, eq_refl)) as H. pose proof (answer_noacc x w q true) as Z. rewrite E in H, Z. by split.
    + by injection E as <- <-.
  - cbn [gstep] in E. injection E as _ E. pose proof (answer_cok w q (bool_decide (is_Some (m_con s !! con_key q)))) as H.
    pose proof (answer_noacc x w q (bool_decide (is_Some (m_con s !! con_key q)))) as Z. rewrite E in H, Z. split; [|done]. apply H. intros ->. by apply bool_decide_eq_true.
  - cbn [gstep] in E. injection E as _ <- <-. split; [done|]. unfold accusations. cbn. destruct (String.eqb_spec q x) as [->|]; [by destruct V|done].
  - apply (loop_next cok) in E as (_ & -> & H); by try split.
  - cbn [gstep] in E. injection E as _ <- <-. split; [|done]. by destruct (bool_decide _).
  - cbn [gstep] in E. by injection E as _ <- <-.
  - cbn [gstep] in E. by injection E as _ <- <-.
  - cbn [gstep] in E. by injection E as _ <- <-.
Qed.

Lemma fine_convicted l y y' o : is_Some (m_con (fm_st y) !! con_key x) -> GAccuse x ∉ fm_go y -> run y l = Some (y', o) -> accusations x o = 0.
Proof.
  intros Co N R. assert (V : Forall cok (fm_go y)) by (apply Forall_forall; intros a A ->; done). clear N.
  revert y o Co V R. induction l as [|e l IH]; intros y o Co V; cbn [frun]; [by intros [= <- <-]|].
  destruct (step y e) as [[y1 o1]|] eqn:E; [|done]. destruct (run y1 l) as [[y2 o2]|] eqn:Q; [|done]. intros [= <- <-].
  pose proof (proj1 (fstep_kept _ _ _ _ _ _ E (con_key x)) Co) as Co1.
  cut (Forall cok (fm_go y1) /\ accusations x o1 = 0); [intros [H1 H2]; rewrite acc_app, H2; by eapply IH|]. clear IH Q.
  assert (Sp : forall a, next_ok cok a -> Forall cok (fm_go (spawn y a))).
  { intros a H. cbn. apply Forall_app. split; [done|]. destruct a; by repeat constructor. }
  destruct e as [g|f|f url r|n| |n m stamp k]; cbn [fstep] in E.
  - injection E as <- <-. split; [|done]. by apply Sp.
  - injection E as <- <-. split; [|done]. apply Sp. by destruct f; destruct (_ : list string).
  - unfold on_reply in E. destruct r as [g|]; [|by injection E as <- <-]. pose proof (valid_cok g) as H. pose proof (valid_noacc x g) as Z.
    destruct (verify (mc_crypto c) g); [destruct f; injection E as <- <-; (split; [by apply Sp|done])|by injection E as <- <-|done].
  - destruct (m_timers (fm_st y) !! n) as [t|] eqn:T; injection E as <- <-; [|done]. split; [|done].
    cbn. apply Forall_app. split; [done|]. constructor; [|by constructor]. by destruct t.
  - injection E as <- <-. split; [|done]. by apply Sp.
  - destruct (fm_go y !! n) as [a|] eqn:G; [|by injection E as <- <-].
    destruct (gstep z c (fm_st y) a m stamp k) as [[s [b o3]]|] eqn:H; [|done]. injection E as <- <-.
    destruct (gstep_cok _ _ _ _ _ _ _ _ Co (Forall_lookup_1 _ _ _ _ V G) H) as [B1 B2].
    split; [|done]. cbn. destruct b; [by apply Forall_insert|by apply Forall_delete].
Qed.
End convicted.
End facts.
