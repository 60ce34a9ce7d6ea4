(** Facts about FineCA.v. *)
From Verif Require Import Bytes Hex Base64 Json Types Crypto Verify Merkle Cert CertPool CTngExt Clock Bitset Revocation CA FineCA
  SpecCodec SpecCert SpecCA SpecFineCA CertFacts ExtFacts BitsetFacts RevocationFacts CAFacts CARidFacts CAPoiFacts.
From Verif Require Logger.
Open Scope string_scope.

Lemma delete_in {A} (l : list A) n b : b ∈ delete n l -> b ∈ l.
Proof. rewrite !elem_of_list_lookup. intros [i H]. destruct (decide (i < n)); [rewrite lookup_delete_lt in H by done|rewrite lookup_delete_ge in H by lia]; eauto. Qed.
Lemma insert_in {A} (l : list A) n a b : b ∈ <[n := a]> l -> b = a \/ b ∈ l.
Proof. intros [i H]%elem_of_list_lookup. apply list_lookup_insert_Some in H as [(-> & -> & _)|(_ & H)]; [by left|right]. by eapply elem_of_list_lookup_2. Qed.

Lemma signed_app o1 o2 : signed (o1 ++ o2) = (signed o1 ++ signed o2)%list.
Proof. unfold signed. by rewrite map_app, concat_app. Qed.

Section facts.
Context {P : prims} (x : x509lib) (z : gzip) (c : caconf P) (cc : cconf P).
Notation step := (cfstep x z c cc).
Notation run := (cfrun x z c cc).
Notation gen := (λ s p fk, generate_revocation z (cac_key c) (cac_self c) (cac_signer c) (a_crv s) (a_online s) p fk).

Lemma run_app l1 l2 y : run y (l1 ++ l2) = let '(y1, o1) := run y l1 in let '(y2, o2) := run y1 l2 in (y2, (o1 ++ o2)%list).
Proof.
  revert y. induction l1 as [|e r IH]; intros y; cbn [app cfrun]; [by destruct (run y l2)|].
  destruct (step y e) as [y1 o1]. rewrite IH. destruct (run y1 r) as [y2 o2]. destruct (run y2 l2) as [y3 o3]. by rewrite app_assoc.
Qed.

Lemma run_snoc l e y : run y (l ++ [e]) = (fst (step (fst (run y l)) e), snd (run y l) ++ snd (step (fst (run y l)) e))%list.
Proof. rewrite run_app. destruct (run y l) as [y1 o1]. cbn [cfrun fst snd]. destruct (step y1 e) as [y2 o2]. cbn. by rewrite app_nil_r. Qed.

(** ** Type and root never change *)
Lemma gstep_frame s a m l : let s' := fst (fst (cgstep x z c s a m l)) in a_type s' = a_type s /\ a_root s' = a_root s.
Proof.
  destruct a as [ds|ds|off i cs [|d ds]|off i cs crt ds|[|crt cs]|[|g ls] crt cs| | |p|p g|p g fk|p g fk|p fk| | |q|i|k crt| |n]; cbn [cgstep fst]; try done.
  - by destruct (get_by_ski _ _).
  - by destruct (Z.eqb (a_type s) 0).
Qed.
Lemma step_frame y e : a_type (fc_st (fst (step y e))) = a_type (fc_st y) /\ a_root (fc_st (fst (step y e))) = a_root (fc_st y).
Proof.
  destruct e as [ds|g|q| |i|n m l]; cbn [cfstep fst fc_st]; try done.
  - destruct (sth_frame cc (fc_st y) g) as (_ & _ & _ & H1 & _ & _ & _ & _ & H2 & _). done.
  - destruct (fc_go y !! n) as [a|]; [|done]. pose proof (gstep_frame (fc_st y) a m l) as H. by destruct (cgstep x z c (fc_st y) a m l) as [[s a'] o].
Qed.
Lemma run_type l : forall y, a_type (fc_st (fst (run y l))) = a_type (fc_st y).
Proof.
  induction l as [|e l IH] using rev_ind; intros y; [done|]. rewrite run_snoc. cbn [fst]. rewrite (proj1 (step_frame _ _)). apply IH.
Qed.

(** ** Objects: [R] holds of the real ones, [F] of the others *)
Definition held (R F : string -> gobj -> Prop) (a : cgoro) : Prop :=
  match a with
  | AFake p g => R p g
  | APre p g fk | AKeep p g fk => R p g /\ F p fk
  | AKeepFake p fk => F p fk
  | _ => True
  end.
Definition objs (R F : string -> gobj -> Prop) (y : fca) : Prop :=
  (forall p g, a_rev (fc_st y) !! p = Some g -> R p g) /\ (forall p g, a_fake (fc_st y) !! p = Some g -> F p g) /\ (forall a, a ∈ fc_go y -> held R F a).

Lemma objs_mono (R F R' F' : string -> gobj -> Prop) y : (forall p g, R p g -> R' p g) -> (forall p g, F p g -> F' p g) -> objs R F y -> objs R' F' y.
Proof.
  intros HR HF (H1 & H2 & H3). split_and!; [naive_solver..|]. intros a Ha. specialize (H3 a Ha). destruct a; cbn [held] in *; naive_solver.
Qed.

Lemma objs_gstep (R F : string -> gobj -> Prop) s a m l : (forall p, R p (gen s p false)) -> (forall p, F p (gen s p true)) ->
  (forall p g, a_rev s !! p = Some g -> R p g) -> (forall p g, a_fake s !! p = Some g -> F p g) -> held R F a ->
  let '(s', a', o) := cgstep x z c s a m l in
  (forall p g, a_rev s' !! p = Some g -> R p g) /\ (forall p g, a_fake s' !! p = Some g -> F p g) /\ (forall b, a' = Some b -> held R F b).
Proof.
  intros GR GF H1 H2 Ha.
  destruct a as [ds|ds|off i cs [|d ds]|off i cs crt ds|[|crt cs]|[|g ls] crt cs| | |p|p g|p g fk|p g fk|p fk| | |q|i|k crt| |n]; cbn [cgstep held] in *;
    try (split_and!; [done..|by intros b [= <-]]).
  - split_and!; [done..|]. intros b [= <-]. cbn [held]. apply GR.

  - split_and!; [|done|].
    + cbn [keep_rev a_rev]. intros p' g' [(-> & ->)|(_ & E)]%lookup_insert_Some; [apply Ha|by apply H1].
    + intros b [= <-]. apply Ha.
  - split_and!; [done| |by intros b [= <-]].
    cbn [keep_other a_fake]. intros p' g' [(-> & ->)|(_ & E)]%lookup_insert_Some; [apply Ha|by apply H2].
  - destruct (get_by_ski _ _); split_and!; try done. by intros b [= <-].
  - destruct (Z.eqb (a_type s) 0); split_and!; try done; by intros b [= <-].
Qed.

Lemma objs_step (R F : string -> gobj -> Prop) y e : (forall p, R p (gen (fc_st y) p false)) -> (forall p, F p (gen (fc_st y) p true)) -> objs R F y -> objs R F (fst (step y e)).
Proof.
  intros GR GF (H1 & H2 & H3). destruct e as [ds|g|q| |i|n m l]; cbn [cfstep fst].
  - split_and!; [done..|]. cbn [fc_go]. intros a [Ha|Ha]%elem_of_app; [by apply H3|]. by apply elem_of_list_singleton in Ha as ->.
  - destruct (sth_frame cc (fc_st y) g) as (_ & _ & _ & _ & _ & Er & Ef & _). split_and!; cbn [fc_st fc_go]; [rewrite Er|rewrite Ef|]; done.
  - split_and!; [done..|]. cbn [fc_go]. intros a [Ha|Ha]%elem_of_app; [by apply H3|]. by apply elem_of_list_singleton in Ha as ->.
  - split_and!; [done..|]. cbn [fc_go]. intros a [Ha|Ha]%elem_of_app; [by apply H3|]. by apply elem_of_list_singleton in Ha as ->.
  - split_and!; done.
  - destruct (fc_go y !! n) as [a|] eqn:G; [|split_and!; done].
    pose proof (objs_gstep R F (fc_st y) a m l GR GF H1 H2 (H3 a (elem_of_list_lookup_2 _ _ _ G))) as K.
    destruct (cgstep x z c (fc_st y) a m l) as [[s a'] o]. destruct K as (K1 & K2 & K3). split_and!; cbn [fst fc_st fc_go]; [done..|].
    intros b Hb. destruct a' as [a'|]; [apply insert_in in Hb as [->|Hb]|apply delete_in in Hb]; auto.
Qed.

(** An answer is something stored, or the empty object. *)
Lemma answer_stored s m g : snd (request_rev s m) = Answer g ->
  g = zero_obj \/ a_rev s !! unpadded m = Some g \/ a_type s <> 0%Z /\ a_fake s !! unpadded m = Some g.
Proof.
  intros H. assert (Hz : forall M : gmap string gobj, Logger.obj_at M (unpadded m) = g -> g = zero_obj \/ M !! unpadded m = Some g).
  { intros M. unfold Logger.obj_at. destruct (M !! unpadded m); cbn; intros <-; auto. }
  unfold request_rev in H. cbn [snd] in H.
  replace (a_rev (if Z.eqb (a_type s) 0 then s else set_a_count s (a_count s + 1))) with (a_rev s) in H by (by destruct (Z.eqb (a_type s) 0)).
  replace (a_fake (if Z.eqb (a_type s) 0 then s else set_a_count s (a_count s + 1))) with (a_fake s) in H by (by destruct (Z.eqb (a_type s) 0)).
  replace (a_type (if Z.eqb (a_type s) 0 then s else set_a_count s (a_count s + 1))) with (a_type s) in H by (by destruct (Z.eqb (a_type s) 0)).
  assert (K : forall b : bool, Answer (if b then Logger.obj_at (a_fake s) (unpadded m) else Logger.obj_at (a_rev s) (unpadded m)) = Answer g -> a_type s <> 0%Z ->
     g = zero_obj \/ a_rev s !! unpadded m = Some g \/ a_type s <> 0%Z /\ a_fake s !! unpadded m = Some g).
  { intros [] E T; injection E as E; destruct (Hz _ E); auto. }
  assert (K0 : Answer (Logger.obj_at (a_rev s) (unpadded m)) = Answer g -> g = zero_obj \/ a_rev s !! unpadded m = Some g \/ a_type s <> 0%Z /\ a_fake s !! unpadded m = Some g).
  { intros E. injection E as E. destruct (Hz _ E); auto. }
  assert (T : a_type s = 0%Z \/ a_type s <> 0%Z) by lia. destruct T as [T|T]; [rewrite T in H; by apply K0|].
  destruct (a_type s) as [|[[[]|[]|]|[[]|[]|]|]|] eqn:Et; try done;
    repeat match type of H with context [if ?b then _ else _] => destruct b end; try done; auto; injection H as H; destruct (Hz _ H); auto.
Qed.

Lemma step_reply y e m r : CReply m r ∈ snd (step y e) -> exists n, r = snd (request_rev (set_a_count (fc_st y) n) m).
Proof.
  destruct e as [ds|g|q| |i|n m' l]; cbn [cfstep snd]; try (intros H; by apply elem_of_nil in H).
  destruct (fc_go y !! n) as [a|]; [|intros H; by apply elem_of_nil in H].
  destruct a as [ds|ds|off i cs [|d ds]|off i cs crt ds|[|crt cs]|[|g ls] crt cs| | |p|p g|p g fk|p g fk|p fk| | |q|i|k crt| |n']; cbn [cgstep snd];
    try (intros H; by apply elem_of_nil in H); try (intros H; by apply elem_of_list_singleton in H).
  - destruct (get_by_ski _ _); intros H; by apply elem_of_nil in H.
  - intros H. apply elem_of_list_singleton in H. injection H as -> ->. by exists n'.
Qed.

(** ** The vector *)
Definition vec_ok (v : crv) : Prop := cur_ok (v_cur v) /\ (v_pre v = None \/ v_pre v = Some (bs_new crv_size)).
Lemma vec_delta v : vec_ok v -> crv_delta v = v_cur v \/ crv_delta v = bs_new crv_size.
Proof. intros [H1 [H2|H2]]; unfold crv_delta; rewrite H2; [by right|left]. apply bs_symdiff_new, H1. Qed.

Lemma vec_mass v l : vec_ok v -> (forall i, i ∈ l -> index_ok i) -> vec_ok (crv_mass_revoke v l).
Proof. intros [H1 H2] Hi. destruct (mass_cur l v) as [E1 E2]. split; [rewrite E1; by apply cur_ok_sets|by rewrite E2]. Qed.

Lemma vec_step y e : (forall i, e = FRevoke i -> index_ok i) -> (forall n m l i, e = FRun n m l -> i ∈ l -> index_ok i) ->
  vec_ok (a_crv (fc_st y)) -> vec_ok (a_crv (fc_st (fst (step y e)))).
Proof.
  intros H1 H2 V. destruct e as [ds|g|q| |i|n m l]; cbn [cfstep fst fc_st]; try done.
  - by destruct (sth_frame cc (fc_st y) g) as (-> & _).
  - apply (vec_mass _ [i]); [done|]. intros j Hj. apply elem_of_list_singleton in Hj as ->. by apply H1.
  - destruct (fc_go y !! n) as [a|]; [|done].
    destruct a as [ds|ds|off i cs [|d ds]|off i cs crt ds|[|crt cs]|[|g ls] crt cs| | |p|p g|p g fk|p g fk|p fk| | |q|i|k crt| |n']; cbn [cgstep fst fc_st]; try done.
    + cbn [mass a_crv]. destruct (a_fresh _); [|done]. apply vec_mass; [done|]. intros i Hi. by eapply H2.
    + split; [apply V|by left].
    + by destruct (get_by_ski _ _).
    + by destruct (Z.eqb _ 0).
Qed.

Lemma init_vec ty k d1 d2 : vec_ok (a_crv (fc_st (fc_init x c ty k d1 d2))).
Proof. split; [apply cur_ok_new|by right]. Qed.

Lemma positions_snoc l e : positions_ok (l ++ [e]) -> positions_ok l /\ (forall i, e = FRevoke i -> index_ok i) /\ (forall n m ps i, e = FRun n m ps -> i ∈ ps -> index_ok i).
Proof.
  intros [H1 H2]. split_and!; [split|..].
  - intros i Hi. apply H1. apply elem_of_app. by left.
  - intros n m ps i Hi. eapply H2. apply elem_of_app. by left.
  - intros i ->. apply H1. apply elem_of_app. right. by apply elem_of_list_singleton.
  - intros n m ps i -> Hi. eapply (H2 n m ps); [|done]. apply elem_of_app. right. by apply elem_of_list_singleton.
Qed.

(** ** Where answers come from *)
Section origin.
Context (Hz : gzip_ok z) (ty k : Z) (d1 d2 : draw).
Notation y0 := (fc_init x c ty k d1 d2).

(** An object made by the CA for the key [p]; the real one is said about a vector of the history. *)
Definition made (p : string) (g : gobj) : Prop := exists v n fk, g = generate_revocation z (cac_key c) (cac_self c) (cac_signer c) v n p fk.
Definition real (l : list cfev) (p : string) (g : gobj) : Prop :=
  made p g /\ exists v d, was_vector x z c cc y0 l v /\ (d = v \/ d = bs_new crv_size) /\
    srh_and_dcrv z g = (rsa_sign_string (cac_key c) (cac_self c) (srh_message (P := P) p v d), d).

Lemma was_more l e v : was_vector x z c cc y0 l v -> was_vector x z c cc y0 (l ++ [e]) v.
Proof. intros (l1 & l2 & -> & ->). exists l1, (l2 ++ [e])%list. by rewrite app_assoc. Qed.

Lemma origin_run l : positions_ok l -> vec_ok (a_crv (fc_st (fst (run y0 l)))) /\ objs (real l) made (fst (run y0 l)).
Proof using Hz.
  induction l as [|e l IH] using rev_ind; intros Hp.
  - split; [apply init_vec|]. split_and!; [done..|]. intros a Ha. by apply elem_of_nil in Ha.
  - apply positions_snoc in Hp as (Hp & Hp1 & Hp2). destruct (IH Hp) as [V O]. rewrite run_snoc. cbn [fst]. split; [by apply vec_step|].
    apply objs_step.
    + intros p. split; [by eexists _, _, _|]. exists (v_cur (a_crv (fc_st (fst (run y0 l))))), (crv_delta (a_crv (fc_st (fst (run y0 l))))). split_and!.
      * by exists l, [e].
      * by apply vec_delta.
      * apply generated_decodes; [exact Hz|]. cbn [revocation_delta]. destruct (vec_delta _ V) as [E|E]; cbn in E; rewrite E; [apply cur_ok_ok, V|apply cur_ok_ok, cur_ok_new].
    + intros p. by eexists _, _, _.
    + eapply objs_mono; [| |exact O]; [|done]. intros p g (M & v & d & W & D & S'). split; [done|]. exists v, d. split_and!; [by apply was_more|done|done].
Qed.

Lemma reply_at l m r : CReply m r ∈ snd (run y0 l) -> exists l1 l2 n, l = (l1 ++ l2)%list /\ r = snd (request_rev (set_a_count (fc_st (fst (run y0 l1))) n) m).
Proof.
  induction l as [|e l IH] using rev_ind; [intros H; by apply elem_of_nil in H|]. rewrite run_snoc. cbn [snd]. intros [H|H]%elem_of_app.
  - destruct (IH H) as (l1 & l2 & n & -> & E). exists l1, (l2 ++ [e])%list, n. by rewrite app_assoc.
  - apply step_reply in H as [n E]. by exists l, [e], n.
Qed.

Context (pk : rsa_pub P) (Hs : cc_sign_scheme cc = "rsa") (Hk : cc_rsa_pubs cc !! cac_self c = Some pk) (Hp : plain_id (cac_self c) = true) (Hn : cac_signer c <> "")
  (Hc : forall t, rsa_check pk t (rsa_sign (cac_key c) t) = true).

Lemma made_own m g : made (unpadded m) g -> own_object c cc m g.
Proof using Hs Hk Hp Hn Hc. intros (v & n & fk & ->). split_and!; [done..|]. by eapply generated_verifies. Qed.

Lemma answers l m g : positions_ok l -> CReply m (Answer g) ∈ snd (run y0 l) ->
  g = zero_obj \/ own_object c cc m g /\ (ty = 0%Z -> exists v d, was_vector x z c cc y0 l v /\ (d = v \/ d = bs_new crv_size) /\ says z c m g v d).
Proof using Hz Hs Hk Hp Hn Hc.
  intros Hl H. destruct (reply_at l m _ H) as (l1 & l2 & n & -> & E). symmetry in E. apply answer_stored in E.
  assert (Hl1 : positions_ok l1) by (destruct Hl as [K1 K2]; split; [intros i Hi; apply K1|intros a b ps i Hi; eapply K2]; apply elem_of_app; by left).
  destruct (origin_run l1 Hl1) as [_ (O1 & O2 & _)]. cbn [set_a_count a_rev a_fake a_type] in E. destruct E as [E|[E|[T E]]]; [by left|right..].
  - destruct (O1 _ _ E) as (M & v & d & W & D & S'). split; [by apply made_own|]. intros _. exists v, d. split_and!; [|done|exact S'].
    destruct W as (l3 & l4 & -> & ->). exists l3, (l4 ++ l2)%list. by rewrite app_assoc.
  - split; [by apply made_own, O2|]. intros ->. exfalso. apply T. rewrite run_type. done.
Qed.
End origin.

(** ** The same answer *)
Lemma same_step k y e : (forall a, a ∈ fc_go y -> other_minute k a) -> (forall n m l, e = FRun n m l -> unpadded (S m) <> k) ->
  (forall a, a ∈ fc_go (fst (step y e)) -> other_minute k a) /\ a_rev (fc_st (fst (step y e))) !! k = a_rev (fc_st y) !! k.
Proof.
  intros O N. destruct e as [ds|g|q| |i|n m l]; cbn [cfstep fst].
  - split; [|done]. cbn [fc_go]. intros a [Ha|Ha]%elem_of_app; [by apply O|]. by apply elem_of_list_singleton in Ha as ->.
  - split; [done|]. cbn [fc_st]. by destruct (sth_frame cc (fc_st y) g) as (_ & _ & _ & _ & _ & -> & _).
  - split; [|done]. cbn [fc_go]. intros a [Ha|Ha]%elem_of_app; [by apply O|]. by apply elem_of_list_singleton in Ha as ->.
  - split; [|done]. cbn [fc_go]. intros a [Ha|Ha]%elem_of_app; [by apply O|]. by apply elem_of_list_singleton in Ha as ->.
  - done.
  - specialize (N n m l eq_refl). destruct (fc_go y !! n) as [a|] eqn:G; [|done]. assert (Oa := O a (elem_of_list_lookup_2 _ _ _ G)).
    assert (K : forall s a' o, cgstep x z c (fc_st y) a m l = (s, a', o) -> match a' with Some b => other_minute k b | None => True end /\ a_rev s !! k = a_rev (fc_st y) !! k).
    { intros s a' o. destruct a as [ds|ds|off i cs [|d ds]|off i cs crt ds|[|crt cs]|[|g ls] crt cs| | |p|p g|p g fk|p g fk|p fk| | |q|i|k' crt| |n']; cbn [cgstep other_minute] in *;
        try (by intros [= <- <- <-]).
      - intros [= <- <- <-]. split; [done|]. cbn [keep_rev a_rev]. by rewrite lookup_insert_ne.
      - destruct (get_by_ski _ _); by intros [= <- <- <-].
      - intros [= <- <- <-]. by destruct (Z.eqb _ 0). }
    destruct (cgstep x z c (fc_st y) a m l) as [[s a'] o]. destruct (K s a' o eq_refl) as [K1 K2]. split; [|exact K2]. cbn [fst fc_go].
    intros b Hb. destruct a' as [a'|]; [apply insert_in in Hb as [->|Hb]|apply delete_in in Hb]; auto.
Qed.

Lemma same_run k l : forall y, (forall a, a ∈ fc_go y -> other_minute k a) -> (forall n m ps, FRun n m ps ∈ l -> unpadded (S m) <> k) ->
  a_rev (fc_st (fst (run y l))) !! k = a_rev (fc_st y) !! k.
Proof.
  induction l as [|e r IH]; intros y O N; [done|]. cbn [cfrun]. destruct (same_step k y e O) as [O1 E1]; [intros n m ps ->; apply (N n m ps); by left|].
  destruct (step y e) as [y1 o1]. cbn [fst] in *. specialize (IH y1 O1 (λ n m ps H, N n m ps (elem_of_list_further _ _ _ H))). destruct (run y1 r) as [y2 o2]. cbn [fst] in *. congruence.
Qed.

Lemma same_answer k d1 d2 l l' m : let y := fst (run (fc_init x c 0 k d1 d2) l) in
  (forall a, a ∈ fc_go y -> other_minute (unpadded m) a) -> (forall n m' ps, FRun n m' ps ∈ l' -> S m' <> m) ->
  snd (request_rev (fc_st (fst (run y l'))) m) = snd (request_rev (fc_st y) m).
Proof.
  intros y O N. assert (T : a_type (fc_st y) = 0%Z) by (unfold y; by rewrite run_type). assert (T' : a_type (fc_st (fst (run y l'))) = 0%Z) by (by rewrite run_type).
  rewrite !request_normal by done. cbn [shown_rev]. unfold Logger.obj_at. rewrite (same_run (unpadded m) l' y O); [done|].
  intros n m' ps H E. apply unpadded_inj in E. by eapply N.
Qed.
End facts.
