(** Loggers whose tasks interleave: where heads and proofs come from. *)
From Verif Require Import Bytes Hex Json Types Crypto Merkle Cert CertPool CTngExt Clock Logger SpecLogger SpecCert CertFacts MerkleFacts LoggerFacts FineLogger SpecFineLogger.
From Coq Require Import Lia.
Open Scope string_scope.

Section facts.
Context {P : prims} (c : lconf P).

Notation sub := fsub.

Lemma runs_app y l1 l2 : lfrun c y (l1 ++ l2) =
  match lfrun c y l1 with None => None | Some (y1, o1) => match lfrun c y1 l2 with None => None | Some (y2, o2) => Some (y2, (o1 ++ o2)%list) end end.
Proof.
  revert y. induction l1 as [|e r IH]; intros y; cbn [lfrun app]; [by destruct (lfrun c y l2) as [[]|]|].
  destruct (lfstep c y e) as [[y1 o1]|]; [|done]. rewrite IH. destruct (lfrun c y1 r) as [[y2 o2]|]; [|done].
  destruct (lfrun c y2 l2) as [[y3 o3]|]; [|done]. by rewrite app_assoc.
Qed.

(** What a task holds after building its tree. *)
Definition built (l : list lfev) (p : nat) (g : gobj) (root : string) (pois : list poi) : Prop :=
  exists certs, head_of c l p g root certs /\ forall q, q ∈ pois -> exists x, x ∈ certs /\ proof_for c x root q.

Definition gok (l : list lfev) (o : list lout) (a : lgoro) : Prop :=
  match a with
  | LClock | LTree _ | LCount | LClear => True
  | LTwin p g root pois | LKeep p g _ root pois | LKeepFake p g _ root pois => built l p g root pois
  | LHeads cas g root pois => (exists p, built l p g root pois) /\ (forall ca, ca ∈ lc_cas c -> ca ∈ cas \/ LMsg (SthTo ca g) ∈ o) /\ (forall ca, ca ∈ cas -> ca ∈ lc_cas c)
  | LProofs root pois => exists p g, built l p g root pois /\ posted c o g
  end.

Record inv (l : list lfev) (y : flog) (o : list lout) : Prop := {
  i_pool : exists b, l_pool (fl_st y) = add_all b /\ forall x, x ∈ b -> sub l x;
  i_sth : forall k g, l_sth (fl_st y) !! k = Some g -> exists p root certs, k = pad2 p /\ head_of c l p g root certs /\
     (posted c o g \/ exists a, a ∈ fl_go y /\ posting a g);
  i_go : forall a, a ∈ fl_go y -> gok l o a;
  i_heads : forall ca g, LMsg (SthTo ca g) ∈ o -> ca ∈ lc_cas c /\ exists p root certs, head_of c l p g root certs;
  i_pois : forall ca q, LMsg (PoiTo ca q) ∈ o -> ca = poi_issuer q /\ exists p g root certs x, head_of c l p g root certs /\ posted c o g /\ x ∈ certs /\ proof_for c x root q
}.

Lemma sub_mono l l' x : sub l x -> sub (l ++ l') x.
Proof. intros (x0 & H & E). exists x0. split; [set_solver|done]. Qed.
Lemma head_mono l l' p g root certs : head_of c l p g root certs -> head_of c (l ++ l') p g root certs.
Proof. intros (t & tr & A & B). exists t, tr. split; [intros x Hx; by apply sub_mono, A|done]. Qed.
Lemma built_mono l l' p g root pois : built l p g root pois -> built (l ++ l') p g root pois.
Proof. intros (certs & A & B). exists certs. split; [by apply head_mono|done]. Qed.
Lemma posted_mono o o' g : posted c o g -> posted c (o ++ o') g.
Proof. intros H ca Hc. specialize (H ca Hc). set_solver. Qed.
Lemma gok_mono l l' o o' a : gok l o a -> gok (l ++ l') (o ++ o') a.
Proof.
  destruct a; cbn [gok]; try done; try apply built_mono.
  - intros ([p A] & B & C). split; [exists p; by apply built_mono|]. split; [|done]. intros ca Hc. specialize (B ca Hc). set_solver.
  - intros (p & g & A & B). exists p, g. split; [by apply built_mono|by apply posted_mono].
Qed.
Lemma built_tail l p g root q r : built l p g root (q :: r) -> built l p g root r.
Proof. intros (certs & A & B). exists certs. split; [done|]. intros q' Hq. apply B. by right. Qed.

Lemma build_built s l b t p g root pois : l_pool s = add_all b -> (forall x, x ∈ b -> sub l x) ->
  build_tree c (get_certs (l_pool s)) t p = Some (g, root, pois) -> built l p g root pois.
Proof.
  intros E F B. destruct (pool_contents b) as (G1 & _ & _ & G4 & _ & G6). rewrite E in B. rewrite G1 in B.
  pose proof B as B'. unfold build_tree in B. destruct (new_tree _ _) as [tr|] eqn:T; [|done]. injection B as <- <- Ep.
  exists (first_copies b). split.
  - exists t, tr. split_and!; try done. intros x Hx. by apply F, G4.
  - intros q Hq. apply elem_of_list_lookup in Hq as [i Hi]. assert (L : i < length (first_copies b)).
    { apply lookup_lt_Some in Hi. rewrite <- Ep, map_length, combine_length in Hi. lia. }
    apply lookup_lt_is_Some in L as [x Hx]. exists x. split; [by eapply elem_of_list_lookup_2|].
    destruct (built_proofs c _ _ _ _ _ _ i x B' Hx) as (_ & q' & Hq' & W). unfold proof_for. assert (q' = q) as -> by congruence. done.
Qed.

Lemma delete_in (l : list lgoro) n x : x ∈ delete n l -> x ∈ l.
Proof. intros H. eapply elem_of_submseteq; [exact H|]. apply sublist_submseteq, sublist_delete. Qed.

Lemma step_inv l y o e y1 o1 : inv l y o -> lfstep c y e = Some (y1, o1) -> inv (l ++ [e]) y1 (o ++ o1).
Proof.
  intros [(b & Ib & Is) Ist Ig Ih Ip] E.
  assert (Pool : forall s, l_pool s = l_pool (fl_st y) -> exists b, l_pool s = add_all b /\ forall x, x ∈ b -> sub (l ++ [e]) x).
  { intros s Es. exists b. split; [by rewrite Es|]. intros x Hx. by apply sub_mono, Is. }
  assert (Go : forall a, a ∈ fl_go y -> gok (l ++ [e]) (o ++ o1) a) by (intros a Ha; by apply gok_mono, Ig).
  assert (Heads : (forall ca g, LMsg (SthTo ca g) ∈ o1 -> ca ∈ lc_cas c /\ exists p root certs, head_of c (l ++ [e]) p g root certs) ->
     forall ca g, LMsg (SthTo ca g) ∈ (o ++ o1)%list -> ca ∈ lc_cas c /\ exists p root certs, head_of c (l ++ [e]) p g root certs).
  { intros H ca g [K|K]%elem_of_app; [|by apply H]. apply Ih in K as (A & p & root & certs & B). split; [done|]. exists p, root, certs. by apply head_mono. }
  assert (Pois : (forall ca q, LMsg (PoiTo ca q) ∈ o1 -> ca = poi_issuer q /\ exists p g root certs x, head_of c (l ++ [e]) p g root certs /\ posted c (o ++ o1) g /\ x ∈ certs /\ proof_for c x root q) ->
     forall ca q, LMsg (PoiTo ca q) ∈ (o ++ o1)%list -> ca = poi_issuer q /\ exists p g root certs x, head_of c (l ++ [e]) p g root certs /\ posted c (o ++ o1) g /\ x ∈ certs /\ proof_for c x root q).
  { intros H ca q [K|K]%elem_of_app; [|by apply H]. apply Ip in K as (A & p & g & root & certs & x & B & C & D). split; [done|]. exists p, g, root, certs, x.
    split; [by apply head_mono|]. split; [by apply posted_mono|done]. }
  assert (Same : (forall ca g, LMsg (SthTo ca g) ∉ o1) -> (forall ca q, LMsg (PoiTo ca q) ∉ o1) -> fl_go y1 = fl_go y -> l_sth (fl_st y1) = l_sth (fl_st y) ->
     (exists b, l_pool (fl_st y1) = add_all b /\ forall x, x ∈ b -> sub (l ++ [e]) x) -> inv (l ++ [e]) y1 (o ++ o1)).
  { intros N1 N2 Eg Es Ep. split; [done|..].
    - rewrite Es, Eg. intros k g K. apply Ist in K as (p & root & certs & A & B & C). exists p, root, certs. split; [done|]. split; [by apply head_mono|].
      destruct C as [C|C]; [left; by apply posted_mono|by right].
    - by rewrite Eg.
    - apply Heads. intros ca g K. by apply N1 in K.
    - apply Pois. intros ca q K. by apply N2 in K. }
  destruct e as [x|m| |n t up]; cbn [lfstep] in E.
  - injection E as <- <-. apply Same; cbn [fl_st fl_go]; try done; [set_solver..|]. cbn. exists (b ++ [tbs_certificate x])%list. rewrite Ib. unfold add_all. rewrite fold_left_app. split; [done|].
    intros x' [K|K]%elem_of_app; [by apply sub_mono, Is|]. apply elem_of_list_singleton in K as ->. exists x. split; [set_solver|done].
  - destruct (request_sth (fl_st y) m) as [s r] eqn:R. injection E as <- <-. unfold request_sth in R. injection R as <- _.
    apply Same; cbn [fl_st fl_go]; try done; [set_solver..|]. by apply Pool.
  - injection E as <- <-. split; cbn [fl_st fl_go].
    + by apply Pool.
    + intros k g K. apply Ist in K as (p & root & certs & A & B & C). exists p, root, certs. split; [done|]. split; [by apply head_mono|].
      destruct C as [C|(a & C & D)]; [left; by apply posted_mono|right; exists a; split; [set_solver|done]].
    + intros a [K|K]%elem_of_app; [by apply Go|]. apply elem_of_list_singleton in K as ->. done.
    + apply Heads. set_solver.
    + apply Pois. set_solver.
  - destruct (fl_go y !! n) as [a|] eqn:N; [|injection E as <- <-; apply Same; try done; [set_solver..|by apply Pool]].
    assert (Ga := Ig a (elem_of_list_lookup_2 _ _ _ N)).
    destruct (lgstep c (fl_st y) a t up) as [[[s a'] o']|] eqn:S; [|done].
    assert (Eo : o1 = o') by (destruct a'; by injection E). subst o'.
    assert (Eg : fl_go y1 = match a' with Some a' => <[n := a']> (fl_go y) | None => delete n (fl_go y) end /\ fl_st y1 = s) by (destruct a'; by injection E as <-). clear E.
    destruct Eg as [Eg Es].
    assert (Sth : (forall k g, l_sth s !! k = Some g -> l_sth (fl_st y) !! k = Some g \/ (exists p root certs, k = pad2 p /\ head_of c l p g root certs /\ exists b, a' = Some b /\ posting b g)) ->
       (forall g, posting a g -> (exists b, a' = Some b /\ posting b g) \/ posted c (o ++ o1) g) ->
       forall k g, l_sth (fl_st y1) !! k = Some g -> exists p root certs, k = pad2 p /\ head_of c (l ++ [FRun n t up]) p g root certs /\ (posted c (o ++ o1) g \/ exists a, a ∈ fl_go y1 /\ posting a g)).
    { intros H1 H2 k g K. rewrite Es in K.
      assert (Here : forall b, a' = Some b -> posting b g -> exists a, a ∈ fl_go y1 /\ posting a g).
      { intros b0 -> Hb. exists b0. split; [|done]. rewrite Eg. apply elem_of_list_lookup. exists n. apply list_lookup_insert. by eapply lookup_lt_Some. }
      apply H1 in K as [K|(p & root & certs & A & B & b0 & B1 & B2)].
      - apply Ist in K as (p & root & certs & A & B & C). exists p, root, certs. split; [done|]. split; [by apply head_mono|].
        destruct C as [C|(a0 & C & D)]; [left; by apply posted_mono|]. apply elem_of_list_lookup in C as [j J]. destruct (decide (j = n)) as [->|Ne].
        + assert (a0 = a) as -> by congruence. destruct (H2 g D) as [(b0 & B1 & B2)|B1]; [right; by eapply Here|by left].
        + right. exists a0. split; [|done]. rewrite Eg. destruct a' as [a'|]; [apply elem_of_list_lookup; exists j; by rewrite list_lookup_insert_ne|].
          apply elem_of_list_lookup. destruct (decide (j < n)); [exists j; by rewrite lookup_delete_lt|exists (pred j)]. rewrite lookup_delete_ge by lia. by replace (Datatypes.S (pred j)) with j by lia.
      - exists p, root, certs. split; [done|]. split; [by apply head_mono|]. right. by eapply Here. }
    assert (Gos : (forall b, a' = Some b -> gok (l ++ [FRun n t up]) (o ++ o1) b) -> forall a, a ∈ fl_go y1 -> gok (l ++ [FRun n t up]) (o ++ o1) a).
    { intros H b0. rewrite Eg. destruct a' as [a'|]; [|intros K; by apply Go, (delete_in _ n)].
      intros K. apply elem_of_list_lookup in K as [j J]. apply list_lookup_insert_Some in J as [(-> & -> & _)|(_ & J)]; [by apply H|]. apply Go. by eapply elem_of_list_lookup_2. }
    destruct a as [|p|p g root pois|p g fk root pois|p g fk root pois|cas g root pois|root pois| |]; cbn [lgstep] in S.
    + injection S as <- <- <-. split; [rewrite Es; by apply Pool|by apply Sth; auto|apply Gos; by intros ? [= <-]|apply Heads; set_solver|apply Pois; set_solver].
    + destruct (build_tree c (get_certs (l_pool (fl_st y))) t p) as [[[g root] pois]|] eqn:B; [|done]. injection S as <- <- <-.
      split; [rewrite Es; by apply Pool|by apply Sth; auto|apply Gos; intros ? [= <-]|apply Heads; set_solver|apply Pois; set_solver].
      cbn [gok]. apply built_mono. by eapply build_built.
    + destruct (get_certs (l_pool (fl_st y))) as [|first rest]; [done|]. destruct (build_tree c _ t p) as [[[fk ?] ?]|]; [|done]. injection S as <- <- <-.
      split; [rewrite Es; by apply Pool|by apply Sth; auto|apply Gos; intros ? [= <-]|apply Heads; set_solver|apply Pois; set_solver].
      cbn [gok] in *. by apply built_mono.
    + injection S as <- <- <-. split; [rewrite Es; by apply Pool| |apply Gos; intros ? [= <-]; cbn [gok] in *; by apply built_mono|apply Heads; set_solver|apply Pois; set_solver].
      apply Sth; [|done]. intros k g' K. cbn [keep_sth l_sth] in K. apply lookup_insert_Some in K as [(<- & <-)|(_ & K)]; [|by left].
      right. destruct Ga as (certs & A & _). exists p, root, certs. split; [done|]. split; [done|]. by eexists.
    + injection S as <- <- <-. split; [rewrite Es; by apply Pool| |apply Gos; intros ? [= <-]|apply Heads; set_solver|apply Pois; set_solver].
      * apply Sth; [by left|]. intros g' K. left. by eexists.
      * cbn [gok] in *. split; [exists p; by apply built_mono|]. split; [|done]. intros ca Hc. by left.
    + destruct cas as [|ca r]; injection S as <- <- <-; cbn [gok] in Ga; destruct Ga as ([p Ga] & Gp & Gc).
      * split; [rewrite Es; by apply Pool| |apply Gos; intros ? [= <-]|apply Heads; set_solver|apply Pois; set_solver].
        -- apply Sth; [by left|]. intros g' K. cbn in K. subst g'. right. intros ca Hc. destruct (Gp ca Hc); set_solver.
        -- cbn [gok]. exists p, g. split; [by apply built_mono|]. intros ca Hc. destruct (Gp ca Hc); set_solver.
      * split; [rewrite Es; by apply Pool| |apply Gos; intros ? [= <-]| |apply Pois; set_solver].
        -- apply Sth; [by left|]. intros g' K. left. by eexists.
        -- cbn [gok]. split; [exists p; by apply built_mono|]. split; [|intros ca' Hc; apply Gc; by right]. intros ca' Hc. destruct (Gp ca' Hc) as [[-> | Q]%elem_of_cons|Q]; [right; set_solver|by left|right; set_solver].
        -- apply Heads. intros ca' g' K. apply elem_of_list_singleton in K as [= -> ->]. split; [apply Gc; by left|].
           destruct Ga as (certs & A & _). exists p, root, certs. by apply head_mono.
    + cbn [gok] in Ga. destruct Ga as (p & g & Ga & Gp). destruct pois as [|q r].
      { injection S as <- <- <-. split; [rewrite Es; by apply Pool|by apply Sth; auto|apply Gos; by intros ? [= <-]|apply Heads; set_solver|apply Pois; set_solver]. }
      assert (Tail : gok (l ++ [FRun n t up]) (o ++ o1) (LProofs root r)).
      { cbn [gok]. exists p, g. split; [apply built_mono; by eapply built_tail|by apply posted_mono]. }
      destruct (is_empty (poi_ski q)).
      { injection S as <- <- <-. split; [rewrite Es; by apply Pool|by apply Sth; auto|apply Gos; by intros ? [= <-]|apply Heads; set_solver|apply Pois; set_solver]. }
      destruct (get_by_ski _ _) as [crt|]; [|done]. destruct (verify_proof _ _ _ _).
      2: { injection S as <- <- <-. split; [rewrite Es; by apply Pool|by apply Sth; auto|apply Gos; by intros ? [= <-]|apply Heads; set_solver|apply Pois; set_solver]. }
      destruct (up (poi_issuer q)); [|done]. injection S as <- <- <-.
      split; [rewrite Es; by apply Pool|by apply Sth; auto|apply Gos; by intros ? [= <-]|apply Heads; set_solver|apply Pois].
      intros ca q' K. apply elem_of_list_singleton in K as [= -> ->]. split; [done|]. destruct Ga as (certs & A & B). destruct (B q) as (x & X1 & X2); [by left|].
      exists p, g, root, certs, x. split; [by apply head_mono|]. split; [by apply posted_mono|done].
    + injection S as <- <- <-. split; [rewrite Es; by apply Pool|by apply Sth; auto|apply Gos; by intros ? [= <-]|apply Heads; set_solver|apply Pois; set_solver].
    + injection S as <- <- <-. split; [rewrite Es; exists []; split; [done|set_solver]|by apply Sth; auto|apply Gos; done|apply Heads; set_solver|apply Pois; set_solver].
Qed.

Lemma run_inv l : forall l0 y o0 y' o, inv l0 y o0 -> lfrun c y l = Some (y', o) -> inv (l0 ++ l) y' (o0 ++ o).
Proof.
  induction l as [|e r IH]; intros l0 y o0 y' o I R; cbn [lfrun] in R; [injection R as <- <-; by rewrite !app_nil_r|].
  destruct (lfstep c y e) as [[y1 o1]|] eqn:E; [|done]. destruct (lfrun c y1 r) as [[y2 o2]|] eqn:Q; [|done]. injection R as <- <-.
  replace (l0 ++ e :: r)%list with ((l0 ++ [e]) ++ r)%list by (by rewrite <- app_assoc). rewrite app_assoc. eapply IH; [|exact Q]. by eapply step_inv.
Qed.

Lemma init_inv ty k : inv [] (fl_init ty k) [].
Proof. split; cbn; try set_solver. exists []. split; [done|set_solver]. Qed.

Lemma fine_inv ty k l y o : lfrun c (fl_init ty k) l = Some (y, o) -> inv l y o.
Proof. intros R. exact (run_inv l [] _ [] _ _ (init_inv ty k) R). Qed.

Lemma fine_heads ty k l y o ca g : lfrun c (fl_init ty k) l = Some (y, o) -> LMsg (SthTo ca g) ∈ o -> ca ∈ lc_cas c /\ exists p root certs, head_of c l p g root certs.
Proof. intros R. exact (i_heads _ _ _ (fine_inv _ _ _ _ _ R) ca g). Qed.

Lemma fine_proofs ty k l y o ca q : lfrun c (fl_init ty k) l = Some (y, o) -> LMsg (PoiTo ca q) ∈ o ->
  ca = poi_issuer q /\ exists p g root certs x, head_of c l p g root certs /\ posted c o g /\ x ∈ certs /\ proof_for c x root q.
Proof. intros R. exact (i_pois _ _ _ (fine_inv _ _ _ _ _ R) ca q). Qed.

(** ** A normal logger *)
Lemma type_step y e y1 o1 : lfstep c y e = Some (y1, o1) -> l_type (fl_st y1) = l_type (fl_st y).
Proof.
  destruct e as [x|m| |n t up]; cbn [lfstep]; try (intros [= <- <-]; done).
  destruct (fl_go y !! n) as [a|]; [|by intros [= <- <-]]. destruct (lgstep c (fl_st y) a t up) as [[[s a'] o']|] eqn:S; [|done].
  intros H. assert (fl_st y1 = s) as -> by (destruct a'; by injection H as <- _). clear H.
  destruct a as [|p|p g root pois|p g fk root pois|p g fk root pois|[|ca cas] g root pois|root [|q pois]| |]; cbn [lgstep] in S; try (injection S as <- _ _; done).
  - destruct (build_tree _ _ _ _) as [[[]]|]; [|done]. by injection S as <- _ _.
  - destruct (get_certs _); [done|]. destruct (build_tree _ _ _ _) as [[[]]|]; [|done]. by injection S as <- _ _.
  - destruct (is_empty _); [by injection S as <- _ _|]. destruct (get_by_ski _ _); [|done]. destruct (verify_proof _ _ _ _); [|by injection S as <- _ _].
    destruct (up _); [|done]. by injection S as <- _ _.
Qed.
Lemma type_run l : forall y y' o, lfrun c y l = Some (y', o) -> l_type (fl_st y') = l_type (fl_st y).
Proof.
  induction l as [|e r IH]; intros y y' o R; cbn [lfrun] in R; [by injection R as <- _|].
  destruct (lfstep c y e) as [[y1 o1]|] eqn:E; [|done]. destruct (lfrun c y1 r) as [[y2 o2]|] eqn:Q; [|done]. injection R as <- _.
  rewrite (IH _ _ _ Q). by eapply type_step.
Qed.

Lemma fine_answer k l y o m g : lfrun c (fl_init 0 k) l = Some (y, o) -> snd (request_sth (fl_st y) m) = Answer g ->
  g = zero_obj \/ (exists root certs, head_of c l m g root certs) /\ (posted c o g \/ exists a, a ∈ fl_go y /\ posting a g).
Proof.
  intros R A. assert (T : l_type (fl_st y) = 0%Z) by (by apply type_run in R). unfold request_sth in A. cbn [snd set_l_count l_type] in A. rewrite T in A.
  injection A as <-. unfold obj_at. cbn [set_l_count l_sth]. destruct (l_sth (fl_st y) !! pad2 m) as [g|] eqn:G; [|by left]. right. cbn.
  apply (i_sth _ _ _ (fine_inv _ _ _ _ _ R)) in G as (p & root & certs & E & H & Q). apply pad2_inj in E as <-. split; [by exists root, certs|done].
Qed.
End facts.
