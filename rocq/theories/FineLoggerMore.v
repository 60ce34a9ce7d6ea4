(** Loggers whose tasks interleave: one task among submissions and requests; tasks without any overlap. *)
From Verif Require Import Bytes Hex Json Types Crypto Verify Merkle Cert CertPool CTngExt Clock Logger SpecLogger SpecCert CertFacts MerkleFacts LoggerFacts FineLogger SpecFineLogger FineLoggerFacts.
From Coq Require Import Lia.
Open Scope string_scope.

Section one.
Context {P : prims} (c : lconf P) (C0 A : list cert).
Context (Agree : key_ids_agree A).

Definition poolok (s : lst) : Prop :=
  indexed (l_pool s) /\ (forall x, x ∈ C0 -> x ∈ p_certs (l_pool s)) /\ (forall x, x ∈ p_certs (l_pool s) -> x ∈ A) /\ length C0 <= length (p_certs (l_pool s)).

(** What a task holds. *)
Definition tree (s : lst) (g : gobj) (root : string) (pois : list poi) : Prop :=
  extract_root_hash g = Some root /\ (forall x, x ∈ C0 -> exists q, q ∈ pois /\ proof_for c x root q) /\
  (forall q, q ∈ pois -> exists x, x ∈ p_certs (l_pool s) /\ proof_for c x root q).

Definition delivered (o : list lout) (root : string) : Prop :=
  forall x, x ∈ C0 -> c_ski x <> "" -> exists q, LMsg (PoiTo (c_issuer_cn x) q) ∈ o /\ proof_for c x root q.

Definition finished (s : lst) (o : list lout) : Prop :=
  exists p g root, l_sth s !! pad2 p = Some g /\ extract_root_hash g = Some root /\ posted c o g /\ delivered o root.

Definition gseg (s : lst) (o : list lout) (a : lgoro) : Prop :=
  match a with
  | LClock | LTree _ => poolok s
  | LTwin p g root pois | LKeep p g _ root pois => poolok s /\ tree s g root pois
  | LKeepFake p g _ root pois => poolok s /\ tree s g root pois /\ l_sth s !! pad2 p = Some g
  | LHeads cas g root pois => poolok s /\ tree s g root pois /\ (exists p, l_sth s !! pad2 p = Some g) /\
      forall ca, ca ∈ lc_cas c -> ca ∈ cas \/ LMsg (SthTo ca g) ∈ o
  | LProofs root pois => poolok s /\ (forall q, q ∈ pois -> exists x, x ∈ p_certs (l_pool s) /\ proof_for c x root q) /\
      exists p g, l_sth s !! pad2 p = Some g /\ extract_root_hash g = Some root /\ posted c o g /\
      forall x, x ∈ C0 -> c_ski x <> "" -> (exists q, q ∈ pois /\ proof_for c x root q) \/ exists q, LMsg (PoiTo (c_issuer_cn x) q) ∈ o /\ proof_for c x root q
  | LCount | LClear => finished s o
  end.

Definition seg (y : flog) (o : list lout) : Prop :=
  match fl_go y with [] => finished (fl_st y) o | [a] => gseg (fl_st y) o a | _ => False end.

Lemma finished_mono s s' o o' : l_sth s' = l_sth s -> finished s o -> finished s' (o ++ o').
Proof.
  intros E (p & g & root & F1 & F2 & F3 & F4). exists p, g, root. rewrite E. split; [done|]. split; [done|]. split; [by apply posted_mono|].
  intros x X1 X2. destruct (F4 x X1 X2) as (q & Q1 & Q2). exists q. split; [set_solver|done].
Qed.

Lemma poolok_add s x : poolok s -> tbs_certificate x ∈ A -> poolok (receive_precert s x) /\ forall d, d ∈ p_certs (l_pool s) -> d ∈ p_certs (l_pool (receive_precert s x)).
Proof.
  intros (P1 & P2 & P3 & P4) Hx. unfold receive_precert, poolok. cbn [l_pool set_l_pool].
  assert (M : forall d, d ∈ p_certs (l_pool s) -> d ∈ p_certs (add_cert (l_pool s) (tbs_certificate x))).
  { intros d Hd. rewrite add_cert_certs by done. destruct (existsb _ _); set_solver. }
  split; [|done]. split; [by apply indexed_add|]. split; [by intros d Hd; apply M, P2|].
  split; [|rewrite add_cert_certs by done; destruct (existsb _ _); rewrite ?app_length; lia].
  intros d Hd. rewrite add_cert_certs in Hd by done. destruct (existsb _ _); [by apply P3|]. apply elem_of_app in Hd as [Hd|Hd]; [by apply P3|]. by apply elem_of_list_singleton in Hd as ->.
Qed.

(** The pool may grow and the counters change. *)
Lemma gseg_grow s s' o o' a : (poolok s -> poolok s') -> (poolok s -> forall d, d ∈ p_certs (l_pool s) -> d ∈ p_certs (l_pool s')) -> l_sth s' = l_sth s ->
  gseg s o a -> gseg s' (o ++ o') a.
Proof.
  intros H1 H2 E. assert (T : poolok s -> forall g root pois, tree s g root pois -> tree s' g root pois).
  { intros Hp g root pois (T1 & T2 & T3). split; [done|]. split; [done|]. intros q Q. destruct (T3 q Q) as (x & X1 & X2). exists x. split; [by apply H2|done]. }
  destruct a; cbn [gseg]; rewrite ?E.
  - done.
  - done.
  - intros [? ?]. auto.
  - intros [? ?]. auto.
  - intros (? & ? & ?). auto.
  - intros (G1 & G2 & G3 & G4). split; [auto|]. split; [auto|]. split; [done|]. intros ca Hc. destruct (G4 ca Hc); [by left|right; set_solver].
  - intros (G1 & G2 & p & g & G3 & G4 & G5 & G6). split; [auto|]. split.
    { intros q Q. destruct (G2 q Q) as (x & X1 & X2). exists x. split; [by apply H2|done]. }
    exists p, g. split; [done|]. split; [done|]. split; [by apply posted_mono|]. intros x X1 X2. destruct (G6 x X1 X2) as [G|(q & Q1 & Q2)]; [by left|right]. exists q. split; [set_solver|done].
  - by apply finished_mono.
  - by apply finished_mono.
Qed.

Lemma step_seg y o e y1 o1 : (forall x, e = FSubmit x -> tbs_certificate x ∈ A) -> e <> FTick ->
  seg y o -> lfstep c y e = Some (y1, o1) -> seg y1 (o ++ o1).
Proof.
  intros HA NT S E. destruct e as [x|m| |n t up]; cbn [lfstep] in E.
  - injection E as <- <-. specialize (HA x eq_refl). unfold seg in *. cbn [fl_st fl_go]. destruct (fl_go y) as [|a [|]]; [by apply (finished_mono (fl_st y))| |done].
    apply (gseg_grow (fl_st y)); [..|exact S]; [| |done]; intros Hp; by apply (poolok_add _ x).
  - destruct (request_sth (fl_st y) m) as [s r] eqn:R. injection E as <- <-. unfold request_sth in R. injection R as <- _.
    unfold seg in *. cbn [fl_st fl_go]. destruct (fl_go y) as [|a [|]]; [by apply (finished_mono (fl_st y))| |done]. by apply (gseg_grow (fl_st y)).
  - done.
  - destruct (fl_go y !! n) as [a|] eqn:N.
    2: { injection E as <- <-. unfold seg in *. destruct (fl_go y) as [|a [|]]; [by apply (finished_mono (fl_st y))| |done]. by apply (gseg_grow (fl_st y)). }
    unfold seg in S. destruct (fl_go y) as [|a0 [|]] eqn:G; [done| |done]. destruct n; [|done]. injection N as ->.
    destruct (lgstep c (fl_st y) a t up) as [[[s a'] o']|] eqn:L; [|done].
    assert (Eo : o1 = o') by (destruct a'; by injection E). subst o'.
    assert (K : match a' with Some b => gseg s (o ++ o1) b | None => finished s (o ++ o1) end -> seg y1 (o ++ o1)).
    { destruct a' as [b|]; injection E as <-; by cbn. }
    apply K. clear K E NT HA y1.
    assert (Keep : gseg (fl_st y) (o ++ o1) a) by (by apply (gseg_grow (fl_st y))).
    destruct a as [|p|p g root pois|p g fk root pois|p g fk root pois|[|ca cas] g root pois|root [|q pois]| |]; cbn [lgstep] in L.
    + by injection L as <- <- <-.
    + destruct (build_tree c (get_certs (l_pool (fl_st y))) t p) as [[[g root] pois]|] eqn:B; [|done]. injection L as <- <- <-.
      cbn [gseg] in *. split; [done|]. destruct Keep as (K1 & K2 & K3 & _). split; [|split].
      * unfold build_tree in B. destruct (new_tree _ _) as [tr|]; [|done]. injection B as <- <- _. apply root_readable.
      * intros x Hx. apply K2, elem_of_list_lookup in Hx as [i Hi]. destruct (built_proofs c _ _ _ _ _ _ i x B Hi) as (_ & q & Q & W).
        exists q. split; [by eapply elem_of_list_lookup_2|done].
      * intros q Hq. apply elem_of_list_lookup in Hq as [i Hi]. assert (Le : i < length (get_certs (l_pool (fl_st y)))).
        { pose proof B as B'. unfold build_tree in B'. destruct (new_tree _ _) as [tr|]; [|done]. injection B' as _ _ Ep.
          apply lookup_lt_Some in Hi. rewrite <- Ep, map_length, combine_length in Hi. lia. }
        apply lookup_lt_is_Some in Le as [x Hx]. exists x. split; [by eapply elem_of_list_lookup_2|].
        destruct (built_proofs c _ _ _ _ _ _ i x B Hx) as (_ & q' & Hq' & W). unfold proof_for. assert (q' = q) as -> by congruence. done.
    + destruct (get_certs (l_pool (fl_st y))) as [|first rest]; [done|]. destruct (build_tree c _ t p) as [[[fk ?] ?]|]; [|done]. by injection L as <- <- <-.
    + injection L as <- <- <-. cbn [gseg] in *. destruct Keep as [K1 K2]. split; [done|]. split; [done|]. cbn [keep_sth l_sth]. by rewrite lookup_insert.
    + injection L as <- <- <-. cbn [gseg] in *. destruct Keep as (K1 & K2 & K3). split; [done|]. split; [done|]. split; [by exists p|]. intros ca Hc. by left.
    + injection L as <- <- <-. cbn [gseg] in *. destruct Keep as (K1 & (T1 & T2 & T3) & [p K3] & K4). split; [done|]. split; [done|]. exists p, g. split; [done|]. split; [done|].
      split; [intros ca Hc; destruct (K4 ca Hc); [set_solver|done]|]. intros x X1 _. left. by apply T2.
    + injection L as <- <- <-. cbn [gseg] in *. destruct S as (K1 & K2 & K3 & K4). split; [done|]. split; [done|]. split; [done|].
      intros ca' Hc. destruct (K4 ca' Hc) as [[-> | Q]%elem_of_cons|Q]; [right; set_solver|by left|right; set_solver].
    + injection L as <- <- <-. cbn [gseg] in *. destruct Keep as (K1 & K2 & p & g & K3 & K4 & K5 & K6). exists p, g, root. split_and!; [done..|].
      intros x X1 X2. destruct (K6 x X1 X2) as [(q & Q & _)|Q]; [by apply elem_of_nil in Q|done].
    + cbn [gseg] in S, Keep. destruct Keep as (K1 & K2 & p & g & K3 & K4 & K5 & K6).
      destruct (K2 q) as (x & X1 & X2); [by left|].
      assert (Tail : forall q', q' ∈ pois -> exists x, x ∈ p_certs (l_pool (fl_st y)) /\ proof_for c x root q') by (intros q' Q; apply K2; by right).
      destruct (is_empty (poi_ski q)) eqn:Em.
      { injection L as <- <- <-. cbn [gseg]. split; [done|]. split; [done|]. exists p, g. split_and!; [done..|]. intros x' Y1 Y2.
        destruct (K6 x' Y1 Y2) as [(q' & [-> | Q]%elem_of_cons & W)|W]; [|left; by exists q'|by right].
        exfalso. apply Y2. apply is_empty_eq in Em. destruct W as (<- & _). done. }
      assert (Ne : c_ski x <> "").
      { destruct X2 as (X2 & _). rewrite <- X2. intros E0. rewrite E0 in Em. done. }
      destruct (get_by_ski (l_pool (fl_st y)) (poi_ski q)) as [crt|] eqn:Ge; [|done]. destruct K1 as (P1 & P2 & P3 & P4).
      rewrite get_by_ski_spec in Ge by done. rewrite Em in Ge. apply find_some in Ge as [C1 C2]. apply elem_of_list_In in C1. apply String.eqb_eq in C2.
      assert (Sub : c_subject crt = c_subject x).
      { symmetry. apply Agree; [by apply P3|by apply P3| |done]. rewrite C2. by destruct X2 as (-> & _). }
      rewrite Sub in L. destruct X2 as (W1 & W2 & W3 & W4). rewrite W4 in L. destruct (up (poi_issuer q)); [|done]. injection L as <- <- <-.
      cbn [gseg]. split; [done|]. split; [done|]. exists p, g. split_and!; [done..|]. intros x' Y1 Y2.
      destruct (K6 x' Y1 Y2) as [(q' & [-> | Q]%elem_of_cons & W)|W]; [|left; by exists q'|by right].
      right. exists q. split; [|done]. destruct W as (_ & <- & _). set_solver.
    + injection L as <- <- <-. exact Keep.
    + injection L as <- <- <-. exact Keep.
Qed.

Lemma run_seg l : forall y o y' o', (forall x, FSubmit x ∈ l -> tbs_certificate x ∈ A) -> FTick ∉ l -> seg y o -> lfrun c y l = Some (y', o') -> seg y' (o ++ o').
Proof.
  induction l as [|e r IH]; intros y o y' o' HA NT S R; cbn [lfrun] in R; [injection R as <- <-; by rewrite app_nil_r|].
  destruct (lfstep c y e) as [[y1 o1]|] eqn:E; [|done]. destruct (lfrun c y1 r) as [[y2 o2]|] eqn:Q; [|done]. injection R as <- <-.
  rewrite app_assoc. eapply IH; [..|exact Q]; [intros x Hx; apply HA; by right|set_solver|]. eapply step_seg; [| |exact S|exact E]; [|set_solver].
  intros x ->. apply HA. by left.
Qed.
End one.

Section more.
Context {P : prims} (c : lconf P).

Lemma run_lives C0 A (Ag : key_ids_agree A) (Le : 2 <= length C0) l : forall y o, (forall x, FSubmit x ∈ l -> tbs_certificate x ∈ A) -> FTick ∉ l ->
  (forall n t up ca, FRun n t up ∈ l -> up ca = true) -> seg c C0 A y o -> lfrun c y l <> None.
Proof.
  induction l as [|e r IH]; intros y o HA NT Up S; cbn [lfrun]; [done|].
  destruct (lfstep c y e) as [[y1 o1]|] eqn:E.
  - assert (S1 : seg c C0 A y1 (o ++ o1)).
    { eapply step_seg; [done| | |exact S|exact E]; [|set_solver]. intros x ->. apply HA. by left. }
    specialize (IH y1 (o ++ o1)%list). destruct (lfrun c y1 r) as [[]|]; [done|]. intros _. apply IH; try done.
    + intros x Hx. apply HA. by right.
    + set_solver.
    + intros n t up ca H. apply (Up n t up ca). by right.
  - intros _. destruct e as [x|m| |n t up]; cbn [lfstep] in E; [done|by destruct (request_sth _ _)|done|].
    destruct (fl_go y !! n) as [a|] eqn:N; [|done]. unfold seg in S. destruct (fl_go y) as [|a0 [|]]; [done| |done]. destruct n; [|done]. injection N as ->.
    destruct (lgstep c (fl_st y) a t up) as [[[s [a'|]] o']|] eqn:L; [done|done|].
    destruct a as [|p|p g root pois|p g fk root pois|p g fk root pois|[|ca cas] g root pois|root [|q pois]| |]; cbn [lgstep] in L; try done; cbn [gseg] in S.
    + destruct S as (_ & _ & _ & S). destruct (build_tree_some c (get_certs (l_pool (fl_st y))) t p) as (tr & _ & B); [unfold get_certs; lia|]. by rewrite B in L.
    + destruct S as ((_ & _ & _ & S) & _). unfold get_certs in L. destruct (p_certs (l_pool (fl_st y))) as [|first rest] eqn:F; [cbn in S; lia|].
      destruct (build_tree_some c ((first :: rest) ++ [first])%list t p) as (tr & _ & B); [rewrite app_length; lia|]. by rewrite B in L.
    + destruct (is_empty (poi_ski q)) eqn:Em; [done|]. destruct S as ((P1 & P2 & P3 & P4) & K2 & _). destruct (K2 q) as (x & X1 & X2); [by left|].
      rewrite get_by_ski_spec in L by done. rewrite Em in L. destruct (find (λ c0, String.eqb (c_ski c0) (poi_ski q)) (p_certs (l_pool (fl_st y)))) as [crt|] eqn:F.
      * destruct (verify_proof _ _ _ _); [|done]. rewrite (Up 0 t up (poi_issuer q)) in L by (by left). done.
      * eapply find_none in F; [|by apply elem_of_list_In]. destruct X2 as (X2 & _). by rewrite X2, String.eqb_refl in F.
Qed.

Lemma arrivals_in l x : FSubmit x ∈ l -> tbs_certificate x ∈ arrivals l.
Proof.
  unfold arrivals. induction l as [|e r IH]; intros H; [by apply elem_of_nil in H|]. cbn. apply elem_of_app. apply elem_of_cons in H as [<-|H]; [left; set_solver|right; auto].
Qed.

Lemma one_task ty k l y o l2 y2 o2 : lfrun c (fl_init ty k) l = Some (y, o) -> fl_go y = [] -> FTick ∉ l2 ->
  lfrun c y (FTick :: l2) = Some (y2, o2) -> fl_go y2 = [] -> key_ids_agree (get_certs (l_pool (fl_st y)) ++ arrivals l2) ->
  exists p g root, l_sth (fl_st y2) !! pad2 p = Some g /\ extract_root_hash g = Some root /\ posted c o2 g /\
    forall x, x ∈ get_certs (l_pool (fl_st y)) -> c_ski x <> "" -> exists q, LMsg (PoiTo (c_issuer_cn x) q) ∈ o2 /\ proof_for c x root q.
Proof.
  intros R G NT R2 G2 Ag. cbn [lfrun lfstep] in R2. rewrite G in R2. cbn [app] in R2.
  destruct (lfrun c (mkfl (fl_st y) [LClock]) l2) as [[y3 o3]|] eqn:Q; [|done]. injection R2 as -> <-.
  eapply (run_seg c (get_certs (l_pool (fl_st y))) _ Ag l2 _ []) in Q.
  - unfold seg in Q. rewrite G2 in Q. exact Q.
  - intros x Hx. apply elem_of_app. right. by apply arrivals_in.
  - done.
  - unfold seg. cbn [fl_go fl_st gseg]. destruct (i_pool _ _ _ _ (fine_inv _ _ _ _ _ _ R)) as (b & Eb & _). split; [rewrite Eb; apply add_all_spec|]. split; [done|]. split; [|done].
    intros x Hx. apply elem_of_app. by left.
Qed.

Lemma one_task_lives ty k l y o l2 : lfrun c (fl_init ty k) l = Some (y, o) -> fl_go y = [] -> FTick ∉ l2 -> (forall n t up ca, FRun n t up ∈ l2 -> up ca = true) ->
  key_ids_agree (get_certs (l_pool (fl_st y)) ++ arrivals l2) -> 2 <= length (get_certs (l_pool (fl_st y))) -> is_Some (lfrun c y (FTick :: l2)).
Proof.
  intros R G NT Up Ag Le. cbn [lfrun lfstep]. rewrite G. cbn [app].
  destruct (lfrun c (mkfl (fl_st y) [LClock]) l2) as [[y3 o3]|] eqn:Q; [done|]. exfalso.
  eapply (run_lives (get_certs (l_pool (fl_st y))) _ Ag Le l2 _ []); [..|exact Q].
  - intros x Hx. apply elem_of_app. right. by apply arrivals_in.
  - done.
  - done.
  - unfold seg. cbn [fl_go fl_st gseg]. destruct (i_pool _ _ _ _ (fine_inv _ _ _ _ _ _ R)) as (b & Eb & _). split; [rewrite Eb; apply add_all_spec|]. split; [done|]. split; [|done].
    intros x Hx. apply elem_of_app. by left.
Qed.

(** ** The same answer *)
Lemma same_step m y e y1 o1 : (forall a, a ∈ fl_go y -> other_period m a) -> (forall n t up, e = FRun n t up -> S (n_minute t) <> m) -> lfstep c y e = Some (y1, o1) ->
  (forall a, a ∈ fl_go y1 -> other_period m a) /\ l_sth (fl_st y1) !! pad2 m = l_sth (fl_st y) !! pad2 m.
Proof.
  intros O N. destruct e as [x|m'| |n t up]; cbn [lfstep].
  - by intros [= <- <-].
  - by intros [= <- <-].
  - intros [= <- <-]. split; [|done]. intros a [K|K]%elem_of_app; [by apply O|]. by apply elem_of_list_singleton in K as ->.
  - specialize (N n t up eq_refl). destruct (fl_go y !! n) as [a|] eqn:G; [|by intros [= <- <-]]. assert (Oa := O a (elem_of_list_lookup_2 _ _ _ G)).
    destruct (lgstep c (fl_st y) a t up) as [[[s a'] o']|] eqn:L; [|done].
    intros H. assert (E : fl_go y1 = match a' with Some a' => <[n := a']> (fl_go y) | None => delete n (fl_go y) end /\ fl_st y1 = s) by (destruct a'; by injection H as <- _).
    clear H. destruct E as [-> ->].
    assert (K : match a' with Some b => other_period m b | None => True end -> forall b, b ∈ match a' with Some a' => <[n := a']> (fl_go y) | None => delete n (fl_go y) end -> other_period m b).
    { intros Q b Hb. destruct a' as [a'|]; [|by apply O, (delete_in _ n)]. apply elem_of_list_lookup in Hb as [j J]. apply list_lookup_insert_Some in J as [(-> & -> & _)|(_ & J)]; [done|].
      apply O. by eapply elem_of_list_lookup_2. }
    destruct a as [|p|p g root pois|p g fk root pois|p g fk root pois|[|ca cas] g root pois|root [|q pois]| |]; cbn [lgstep] in L; try (injection L as <- <- <-; split; [by apply K|done]).
    + destruct (build_tree _ _ _ _) as [[[]]|]; [|done]. injection L as <- <- <-. split; [by apply K|done].
    + destruct (get_certs _); [done|]. destruct (build_tree _ _ _ _) as [[[]]|]; [|done]. injection L as <- <- <-. split; [by apply K|done].
    + injection L as <- <- <-. split; [by apply K|]. cbn [keep_sth l_sth]. rewrite lookup_insert_ne; [done|]. intros E. apply pad2_inj in E. done.
    + destruct (is_empty _); [injection L as <- <- <-; split; [by apply K|done]|]. destruct (get_by_ski _ _); [|done].
      destruct (verify_proof _ _ _ _); [|injection L as <- <- <-; split; [by apply K|done]]. destruct (up _); [|done]. injection L as <- <- <-. split; [by apply K|done].
Qed.

Lemma same_run m l : forall y y' o, (forall a, a ∈ fl_go y -> other_period m a) -> (forall n t up, FRun n t up ∈ l -> S (n_minute t) <> m) -> lfrun c y l = Some (y', o) ->
  l_sth (fl_st y') !! pad2 m = l_sth (fl_st y) !! pad2 m.
Proof.
  induction l as [|e r IH]; intros y y' o O N R; cbn [lfrun] in R; [by injection R as <- _|].
  destruct (lfstep c y e) as [[y1 o1]|] eqn:E; [|done]. destruct (lfrun c y1 r) as [[y2 o2]|] eqn:Q; [|done]. injection R as <- _.
  destruct (same_step m y e y1 o1 O) as [O1 E1]; [|done|].
  { intros n t up ->. apply (N n t up). by left. }
  rewrite <- E1. eapply IH; [exact O1| |exact Q]. intros n t up H. apply (N n t up). by right.
Qed.

Lemma fine_same_answer k l y o l' y' o' m : lfrun c (fl_init 0 k) l = Some (y, o) -> lfrun c y l' = Some (y', o') ->
  (forall a, a ∈ fl_go y -> other_period m a) -> (forall n t up, FRun n t up ∈ l' -> S (n_minute t) <> m) ->
  snd (request_sth (fl_st y') m) = snd (request_sth (fl_st y) m).
Proof.
  intros R R' O N. assert (T : l_type (fl_st y) = 0%Z) by (by apply type_run in R). assert (T' : l_type (fl_st y') = 0%Z) by (apply type_run in R'; congruence).
  unfold request_sth. cbn [snd set_l_count l_type l_sth]. rewrite T, T'. unfold obj_at. by rewrite (same_run m l' y y' o' O N R').
Qed.

(** ** Without overlap *)
Section alone.
Context (t : now) (up : string -> bool).
Notation st := (FRun 0 t up).

Lemma step_go s a l : lfrun c (mkfl s [a]) (st :: l) =
  match lgstep c s a t up with
  | None => None
  | Some (s1, a', o) => match lfrun c (mkfl s1 (match a' with Some b => [b] | None => [] end)) l with None => None | Some (y2, o2) => Some (y2, (o ++ o2)%list) end
  end.
Proof. cbn [lfrun lfstep fl_go fl_st lookup list_lookup]. destruct (lgstep c s a t up) as [[[s1 [b|]] o]|]; done. Qed.

Lemma end_alone s : lfrun c (mkfl s [LCount]) [st; st] = Some (mkfl (end_period s) [], []).
Proof. reflexivity. Qed.

Lemma proofs_alone pois : forall s root, exists n,
  lfrun c (mkfl s [LProofs root pois]) (repeat st n) = if snd (send_pois (P := P) up s root pois) then Some (mkfl (end_period s) [], map LMsg (fst (send_pois (P := P) up s root pois))) else None.
Proof.
  induction pois as [|q r IH]; intros s root.
  - exists 3. reflexivity.
  - destruct (IH s root) as [n H]. cbn [send_pois]. destruct (is_empty (poi_ski q)) eqn:Em.
    { exists (S n). cbn [repeat]. rewrite step_go. cbn [lgstep]. rewrite Em, H. by destruct (send_pois (P := P) up s root r) as [ms []]. }
    destruct (get_by_ski (l_pool s) (poi_ski q)) as [crt|] eqn:Ge; [|exists 1; cbn [repeat]; rewrite step_go; cbn [lgstep]; by rewrite Em, Ge].
    destruct (verify_proof _ _ _ _) eqn:V.
    2: { exists 3. cbn [repeat]. rewrite step_go. cbn [lgstep]. rewrite Em, Ge, V, end_alone. done. }
    destruct (up (poi_issuer q)) eqn:U; [|exists 1; cbn [repeat]; rewrite step_go; cbn [lgstep]; by rewrite Em, Ge, V, U].
    exists (S n). cbn [repeat]. rewrite step_go. cbn [lgstep]. rewrite Em, Ge, V, U, H. by destruct (send_pois (P := P) up s root r) as [ms []].
Qed.

Lemma heads_alone cas : forall s g root pois, exists n,
  lfrun c (mkfl s [LHeads cas g root pois]) (repeat st n) =
    if snd (send_pois (P := P) up s root pois) then Some (mkfl (end_period s) [], map LMsg (map (λ ca, SthTo ca g) cas ++ fst (send_pois (P := P) up s root pois))%list) else None.
Proof.
  induction cas as [|ca r IH]; intros s g root pois.
  - destruct (proofs_alone pois s root) as [n H]. exists (S n). cbn [repeat]. rewrite step_go. cbn [lgstep]. rewrite H. by destruct (send_pois (P := P) up s root pois) as [ms []].
  - destruct (IH s g root pois) as [n H]. exists (S n). cbn [repeat]. rewrite step_go. cbn [lgstep]. rewrite H. by destruct (send_pois (P := P) up s root pois) as [ms []].
Qed.

Lemma task_alone s : exists n, lfrun c (mkfl s []) (FTick :: repeat st n) =
  let '(s', ms, ok) := publish c up s t t t in if ok then Some (mkfl (end_period s') [], map LMsg ms) else None.
Proof.
  assert (T : forall n, lfrun c (mkfl s []) (FTick :: repeat st (S n)) = lfrun c (mkfl s [LTree (S (n_minute t))]) (repeat st n)).
  { intros n. change (lfrun c (mkfl s []) (FTick :: repeat st (S n))) with (match lfrun c (mkfl s [LClock]) (st :: repeat st n) with None => None | Some (y2, o2) => Some (y2, o2) end).
    rewrite step_go. cbn [lgstep app]. by destruct (lfrun c _ (repeat st n)) as [[]|]. }
  unfold publish. destruct (build_tree c (get_certs (l_pool s)) t (S (n_minute t))) as [[[g root] pois]|] eqn:B.
  2: { exists 2. rewrite (T 1). cbn [repeat]. rewrite step_go. cbn [lgstep]. by rewrite B. }
  destruct (get_certs (l_pool s)) as [|first rest] eqn:Ge.
  { exists 3. rewrite (T 2). cbn [repeat]. rewrite step_go. cbn [lgstep]. rewrite Ge, B, step_go. cbn [lgstep]. by rewrite Ge. }
  destruct (build_tree c ((first :: rest) ++ [first])%list t (S (n_minute t))) as [[[fk ?] ?]|] eqn:B2.
  2: { exists 3. rewrite (T 2). cbn [repeat]. rewrite step_go. cbn [lgstep]. rewrite Ge, B, step_go. cbn [lgstep]. rewrite Ge. by rewrite B2. }
  set (s' := mklst (l_pool s) (l_type s) (l_interval s) (l_count s) (l_online s) (<[pad2 (S (n_minute t)) := g]> (l_sth s)) (<[pad2 (S (n_minute t)) := fk]> (l_fake s))).
  destruct (heads_alone (lc_cas c) s' g root pois) as [n H]. exists (S (S (S (S (S n))))).
  rewrite (T (S (S (S (S n))))). cbn [repeat]. rewrite step_go. cbn [lgstep]. rewrite Ge, B, step_go. cbn [lgstep]. rewrite Ge, B2, step_go. cbn [lgstep]. rewrite step_go. cbn [lgstep].
  change (keep_fake (keep_sth s (S (n_minute t)) g) (S (n_minute t)) fk) with s'. rewrite H. destruct (send_pois (P := P) up s' root pois) as [ms []]; reflexivity.
Qed.
End alone.
End more.
