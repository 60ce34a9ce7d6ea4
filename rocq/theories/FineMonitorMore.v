(** A monitor whose goroutines interleave: proofs are kept, and statements of convicted entities withheld. *)
From Verif Require Import Bytes Types Crypto Verify VerifyFacts Bitset Revocation Clock Monitor MonitorMore FineMonitor SpecFineMonitor FineMonitorFacts.
From Coq Require Import Lia.
Open Scope string_scope.

Global Instance job_dec : EqDecision job.
Proof. solve_decision. Defined.

Section facts.
Context {P : prims} (z : gzip) (c : mconf (P := P)).
Notation step := (fstep z c).
Notation run := (frun z c).

(** ** Proofs are kept *)
Definition kept (s s' : mst) : Prop := forall i, (is_Some (m_con s !! i) -> is_Some (m_con s' !! i)) /\ (is_Some (m_acc s !! i) -> is_Some (m_acc s' !! i)).

Lemma kept_same s s' : m_con s' = m_con s -> m_acc s' = m_acc s -> kept s s'.
Proof. intros E1 E2 i. by rewrite E1, E2. Qed.
Lemma kept_trans s s1 s2 : kept s s1 -> kept s1 s2 -> kept s s2.
Proof. intros A B i. destruct (A i), (B i). auto. Qed.
Lemma kept_tset t s v : kept s (tset t s v).
Proof. apply kept_same; by destruct s, t. Qed.
Lemma some_insert {A} (t : gmap gid A) i k v : is_Some (t !! i) -> is_Some (<[k := v]> t !! i).
Proof. intros H. destruct (decide (k = i)) as [->|N]; [by rewrite lookup_insert|by rewrite lookup_insert_ne]. Qed.

Lemma gstep_kept s a m stamp k s' b o : gstep z c s a m stamp k = Some (s', (b, o)) -> kept s s'.
Proof.
  intros E. destruct a; cbn [gstep] in E.
  - injection E as <- _. by apply kept_same.
  - injection E as E. destruct (obj_kind g) as [[[]| |[]]|[]|]; injection E as <- _ _; try apply kept_tset; intros i; (split; [|try done]); try done; apply some_insert.
  - injection E as <- _ _. apply kept_tset.
  - injection E as <- _ _. by apply kept_same.
  - injection E as <- _ _. by apply kept_same.
  - injection E as <- _ _. by apply kept_same.
  - destruct (check_rev z c s g); [injection E as <- _|injection E as <- _ _|done]; by apply kept_same.
  - injection E as <- _ _. by apply kept_same.
  - injection E as <- _. by apply kept_same.
  - injection E as <- _. by apply kept_same.
  - injection E as <- _ _. by apply kept_same.
  - injection E as <- _ _. by apply kept_same.
  - injection E as <- _ _. by apply kept_same.
  - injection E as <- _ _. apply kept_tset.
  - injection E as <- _ _. by apply kept_same.
  - injection E as <- _ _. by apply kept_same.
Qed.

(** What an event does to the storages, and to the goroutines, apart from a step of a goroutine. *)
Lemma fstep_kept y e y' o : step y e = Some (y', o) -> kept (fm_st y) (fm_st y').
Proof.
  destruct e as [g|f|f url r|n| |n m stamp k]; cbn [fstep]; intros E.
  - injection E as <- _. by apply kept_same.
  - injection E as <- _. by apply kept_same.
  - unfold on_reply in E. destruct r as [g|]; [|injection E as <- _; by apply kept_same].
    destruct (verify (mc_crypto c) g); [destruct f; injection E as <- _|injection E as <- _|done]; by apply kept_same.
  - destruct (m_timers (fm_st y) !! n); injection E as <- _; by apply kept_same.
  - injection E as <- _. by apply kept_same.
  - destruct (fm_go y !! n) as [a|]; [|injection E as <- _; by apply kept_same].
    destruct (gstep z c (fm_st y) a m stamp k) as [[s [b o1]]|] eqn:H; [|done]. injection E as <- _. cbn. by eapply gstep_kept.
Qed.

Lemma fine_kept l y y' o : run y l = Some (y', o) -> kept (fm_st y) (fm_st y').
Proof.
  revert y o. induction l as [|e l IH]; intros y o; cbn [frun].
  - intros [= <- _]. by apply kept_same.
  - destruct (step y e) as [[y1 o1]|] eqn:S; [|done]. destruct (run y1 l) as [[y2 o2]|] eqn:R; [|done]. intros [= <- _].
    eapply kept_trans; [by eapply fstep_kept|by eapply IH].
Qed.

(** ** Statements of convicted entities are withheld *)
Variable e : string.

Definition sr (t : tab) : Prop := t = TSth \/ t = TRev.
Definition badk (s : mst) (t : tab) (k : gid) : Prop := is_Some (tget t s !! k) /\ i_entity k = e.

Definition good_list (u : update) : Prop := forall t, sr t -> forall g, g ∈ ulist t u -> g_p0 g <> e.

Definition wl (s : mst) (j : job) (rest : list job) (u : update) : Prop :=
  (exists p, task = (p ++ j :: rest)%list) /\ good_list u /\ (forall t, sr t -> JClean t ∉ j :: rest -> forall k, ~ badk s t k).

Definition wok (s : mst) (a : goro) : Prop :=
  match a with
  | GDup g | GStore g | GSrh _ g => ~ full_of e g
  | GLoop j todo seen rest u => wl s j rest u /\ (forall t, sr t -> j = JClean t -> forall k, badk s t k -> k ∈ todo)
  | GLook j i todo seen rest u | GDel j i todo seen rest u => wl s j rest u /\ (forall t, sr t -> j = JClean t -> forall k, badk s t k -> k ∈ todo \/ k = i)
  | GPeriod u | GSave u => good_list u
  | _ => True
  end.

Definition less (s s' : mst) : Prop := forall t, sr t -> forall k, badk s' t k -> badk s t k.

Lemma wl_less s s' j r u : less s s' -> wl s j r u -> wl s' j r u.
Proof. intros L (A & B & C). split_and!; [done|done|]. intros t T N k K. apply L in K; [|done]. by eapply C. Qed.
Lemma wok_less s s' a : less s s' -> wok s a -> wok s' a.
Proof.
  intros L. destruct a; cbn; try done; intros [A B]; (split; [by eapply wl_less|]); intros t T E' k' K; apply (L t T) in K; by eapply B.
Qed.

Lemma less_same s s' : m_sth s' = m_sth s -> m_rev s' = m_rev s -> less s s'.
Proof. intros E1 E2 t [-> | ->] k; unfold badk; cbn; by rewrite ?E1, ?E2. Qed.

Lemma less_tset t s v : (forall k, i_entity k = e -> is_Some (v !! k) -> is_Some (tget t s !! k)) -> less s (tset t s v).
Proof.
  intros H t' T k [K1 K2]. split; [|done]. rewrite tget_tset in K1. destruct (decide (t = t')) as [<-|]; [by apply H|done].
Qed.

Lemma insert_other (t : gmap gid gobj) g k : g_p0 g <> e -> i_entity k = e -> is_Some (<[get_id g := g]> t !! k) -> is_Some (t !! k).
Proof. intros N K. rewrite lookup_insert_ne; [done|]. intros <-. done. Qed.

Lemma clean_before t p rest : task = (p ++ JCollect t :: rest)%list -> JClean t ∉ rest.
Proof.
  unfold task. intros E I.
  do 11 (destruct p as [|? p]; [cbn in E; injection E; intros; subst; first [discriminate|set_solver]|cbn in E; injection E as <- E]).
  by destruct p.
Qed.

Definition filed (s : mst) : Prop := forall t, map_Forall (λ i g, get_id g = i) (tget t s).

(** The end of a loop. *)
Lemma begin_wok s j rest u : wl s j rest u -> (forall t, sr t -> j = JClean t -> forall k, ~ badk s t k) -> wok s (begin rest u s).
Proof.
  intros ((p & T) & G & W) N. destruct rest as [|j' r]; cbn; [done|].
  split; [split_and!|].
  - exists (p ++ [j])%list. rewrite <- app_assoc. done.
  - done.
  - intros t St I k K. destruct (decide (j = JClean t)) as [->|D]; [by eapply N|]. eapply (W t St); [|exact K]. intros J. apply elem_of_cons in J as [J|J]; [by subst|done].
  - intros t St -> k [K _]. apply elem_of_dom. done.
Qed.


Lemma valid_wok s g a o : ~ full_of e g -> valid c g = (a, o) -> match a with Some a => wok s a | None => True end.
Proof. unfold valid. intros H E. destruct (obj_kind g) as [[[]| |[]]|[]|]; by injection E as <- <-. Qed.

Lemma answer_wok s w x b a o : answer w x b = (a, o) -> match a with Some a => wok s a | None => True end.
Proof.
  destruct w as [ok| |f r]; cbn; intros E; injection E as <- _.
  - by destruct (_ && _).
  - by destruct b.
  - by destruct r.
Qed.

Lemma gloop_wok s j todo seen rest u m stamp k s' b o : filed s -> wok s (GLoop j todo seen rest u) ->
  gstep z c s (GLoop j todo seen rest u) m stamp k = Some (s', (b, o)) -> s' = s /\ o = [] /\ match b with Some b => wok s b | None => True end.
Proof.
  intros F [W C]. cbn [gstep]. intros E. injection E as <- <- <-. split_and!; [done|done|].
  assert (B : todo = ∅ -> wok s (begin rest u s)).
  { intros D. apply (begin_wok s j); [done|]. intros t T E k' K. apply (C t T E) in K. set_solver. }
  destruct (bool_decide (k ∈ seen)) eqn:K.
  { match goal with |- context [@bool_decide (todo = ∅) ?d] => destruct (@bool_decide (todo = ∅) d) eqn:D end; [|by split].
    apply bool_decide_eq_true in D. by apply B. }
  assert (C' : forall t, sr t -> j = JClean t -> forall k', badk s t k' -> k' ∈ todo ∖ {[k]} \/ k' = k).
  { intros t T E k' K'. apply (C t T E) in K'. destruct (decide (k' = k)); [by right|left; set_solver]. }
  destruct (tget (jtab j) s !! k) as [x|] eqn:L.
  - destruct j as [t|t|t|t]; cbn [wok].
    + by split.
    + by split.
    + destruct (String.eqb _ _); split; try done.
    + destruct W as ((p & T) & G & W). split; [|done]. split_and!; [by exists p| |done].
      intros t' St g I. rewrite ulist_collect in I. destruct (decide _) as [[<- _]|]; [|by eapply G].
      apply elem_of_app in I as [I|I]; [by eapply G|]. apply elem_of_list_singleton in I. subst g.
      pose proof (F t k x L) as Q. intros Hx. apply (W t St) with (k := k).
      * intros J. apply elem_of_cons in J as [J|J]; [done|]. by apply clean_before in T.
      * split; [by eexists|]. by rewrite <- Q.
  - match goal with |- context [@bool_decide (todo = ∅) ?d] => destruct (@bool_decide (todo = ∅) d) eqn:D end.
    + apply bool_decide_eq_true in D. by apply B.
    + split; [done|]. intros t T E k' K'. destruct (C' t T E k' K') as [|Q]; [done|]. subst k' j. destruct K' as [[v K'] _]. cbn in L. congruence.
Qed.

Lemma full_other g f : f = Sth \/ f = Rev -> obj_kind g = KObj (OFull f) -> ~ full_of e g -> g_p0 g <> e.
Proof. intros F K N E. apply N. split; [|done]. apply obj_kind_obj in K. destruct F as [-> | ->]; [by left|by right]. Qed.

Lemma gstep_wok s a m stamp k s' b o : is_Some (m_con s !! con_key e) -> filed s -> wok s a -> gstep z c s a m stamp k = Some (s', (b, o)) ->
  less s s' /\ match b with Some b => wok s' b | None => True end /\ (forall d u, FUpdate d u ∈ o -> good_list u).
Proof.
  intros Co F W E.
  assert (V : forall g a o, valid c g = (a, o) -> forall d u, FUpdate d u ∈ o -> good_list u).
  { intros g a1 o1 H d u I. unfold valid in H. destruct (obj_kind g) as [[[]| |[]]|[]|]; injection H as _ <-; try by apply elem_of_nil in I.
    - destruct (is_logger c _); [|by apply elem_of_nil in I]. by apply elem_of_list_singleton in I.
    - destruct (is_authority c _); [|by apply elem_of_nil in I]. by apply elem_of_list_singleton in I. }
  assert (A : forall w x b1 a o, answer w x b1 = (a, o) -> forall d u, FUpdate d u ∈ o -> good_list u).
  { intros w x b1 a1 o1 H d u I. destruct w as [ok| |f r]; cbn in H; injection H as _ <-; [by apply elem_of_nil in I..|].
    destruct b1; [by apply elem_of_nil in I|by apply elem_of_list_singleton in I]. }
  assert (N : forall d u, FUpdate d u ∈ [] -> good_list u) by (intros d u I; by apply elem_of_nil in I).
  destruct a as [g|g|g|g|ca d|ca d|url g|x f|w x|w x|x|j todo seen rest u|j i todo seen rest u|j i todo seen rest u|u|u].
  - cbn [gstep wok] in *. injection E as <- E. split; [by apply less_same|]. destruct (is_duplicate s g); [injection E as <- <-; by split|].
    destruct (obj_kind g) as [[[]| |[]]|[]|]; try (split; [by eapply valid_wok|by eapply V]); injection E as <- <-; by split.
  - cbn [gstep wok] in *. injection E as E.
    destruct (obj_kind g) as [[[]| |[]]|[]|] eqn:K; injection E as <- <- <-; (split; [|by split]);
      try (by apply less_same); try (apply less_tset; cbn; intros k' Hk; try done; apply insert_other; [|done]; eapply full_other; [|exact K|done]; auto).
    all: intros t [-> | ->] k'; unfold badk; cbn; by destruct s.
  - cbn [gstep wok] in *. injection E as <- <- <-. split; [|by split].
    intros t [-> | ->] k'; unfold badk; rewrite tget_tset; by destruct (obj_kind g) as [[[]| |[]]|[]|].
  - cbn [gstep] in E. injection E as <- <- <-. split; [by apply less_same|by split].
  - cbn [gstep] in E. injection E as <- <- <-. split; [by apply less_same|]. split; [by destruct (m_crv s !! ca)|done].
  - cbn [gstep] in E. injection E as <- <- <-. split; [by apply less_same|by split].
  - cbn [gstep wok] in *. destruct (check_rev z c s g); [| |done].
    + injection E as <- E. split; [by apply less_same|]. split; [by eapply valid_wok|by eapply V].
    + injection E as <- <- <-. split; [by apply less_same|by split].
  - cbn [gstep] in E. injection E as <- <- <-. split; [by apply less_same|by split].
  - cbn [gstep] in E. injection E as <- E. split; [by apply less_same|]. destruct (bool_decide _).
    + split; [by eapply answer_wok|by eapply A].
    + injection E as <- <-. by split.
  - cbn [gstep] in E. injection E as <- E. split; [by apply less_same|]. split; [by eapply answer_wok|by eapply A].
  - cbn [gstep] in E. injection E as <- <- <-. split; [by apply less_same|]. split; [done|]. intros d u I. by apply elem_of_list_singleton in I.
  - apply gloop_wok in E; [|done|done]. destruct E as (-> & -> & H). split; [by apply less_same|by split].
  - cbn [gstep wok] in *. injection E as <- <- <-. split; [by apply less_same|]. split; [|done]. destruct (bool_decide _) eqn:D; [exact W|].
    apply bool_decide_eq_false in D. destruct W as [W C]. split; [done|]. intros t T E k' K. destruct (C t T E k' K) as [|Q]; [done|]. subst k'.
    destruct K as [_ K]. by rewrite K in D.
  - cbn [gstep wok] in *. injection E as <- <- <-. destruct W as [W C].
    assert (L : less s (tset (jtab j) s (delete i (tget (jtab j) s)))).
    { apply less_tset. intros k' _ [v H]. apply lookup_delete_Some in H as [_ H]. by eexists. }
    split; [done|]. split; [|done]. split; [by eapply wl_less|]. intros t T E k' K. pose proof (L t T k' K) as K0.
    destruct (C t T E k' K0) as [|Q]; [done|]. subst k' j. destruct K as [K _]. cbn [jtab] in K. rewrite tget_tset, decide_True, lookup_delete in K by done. by destruct K.
  - cbn [gstep wok] in *. injection E as <- <- <-. split; [by apply less_same|]. split; [|done]. intros t T. specialize (W t T). by destruct T as [-> | ->].
  - cbn [gstep wok] in *. injection E as <- <- <-. split; [by apply less_same|]. split; [done|]. intros d v I. apply elem_of_list_singleton in I. by injection I as -> ->.
Qed.

Definition winv (y : fmon) : Prop := is_Some (m_con (fm_st y) !! con_key e) /\ Forall (wok (fm_st y)) (fm_go y).

Lemma wok_same s s' a : m_sth s' = m_sth s -> m_rev s' = m_rev s -> wok s a -> wok s' a.
Proof. intros E1 E2. apply wok_less. by apply less_same. Qed.

Lemma fstep_winv y ev y' o : filed (fm_st y) -> winv y -> (forall g, fcarries ev g -> ~ full_of e g) -> step y ev = Some (y', o) ->
  winv y' /\ (forall d u, FUpdate d u ∈ o -> good_list u).
Proof.
  intros F [Co W] R E. assert (Co' : is_Some (m_con (fm_st y') !! con_key e)) by (by apply (fstep_kept _ _ _ _ E (con_key e))).
  assert (N : forall d u, FUpdate d u ∈ [] -> good_list u) by (intros d u I; by apply elem_of_nil in I).
  assert (Sp : forall a, match a with Some a => wok (fm_st y) a | None => True end -> Forall (wok (fm_st (spawn y a))) (fm_go (spawn y a))).
  { intros a H. cbn. apply Forall_app. split; [done|]. destruct a; by repeat constructor. }
  destruct ev as [g|f|f url r|n| |n m stamp k]; cbn [fstep] in E.
  - injection E as <- <-. split; [|done]. split; [done|]. apply Sp. cbn. apply R. by left.
  - injection E as <- <-. split; [|done]. split; [done|]. apply Sp. by destruct f; destruct (_ : list string).
  - unfold on_reply in E.
    assert (Bad : Some (mkfm (wait_then_accuse (fm_st y) url f) (fm_go y), []) = Some (y', o) -> winv y' /\ (forall d u, FUpdate d u ∈ o -> good_list u)).
    { intros [= <- <-]. split; [|done]. split; [done|]. cbn. eapply Forall_impl; [exact W|]. intros a. by apply wok_same. }
    destruct r as [g|]; [|by apply Bad]. destruct (verify (mc_crypto c) g); [|by apply Bad|done].
    assert (G : ~ full_of e g) by (apply R; right; by exists f, url).
    assert (V : forall d u, FUpdate d u ∈ snd (valid c g) -> good_list u).
    { intros d u I. unfold valid in I. destruct (obj_kind g) as [[[]| |[]]|[]|]; cbn [snd] in I; try by apply elem_of_nil in I.
      - destruct (is_logger c _); [|by apply elem_of_nil in I]. by apply elem_of_list_singleton in I.
      - destruct (is_authority c _); [|by apply elem_of_nil in I]. by apply elem_of_list_singleton in I. }
    pose proof (valid_wok (fm_st y) g (fst (valid c g)) (snd (valid c g)) G (surjective_pairing _)) as Vw.
    destruct f; injection E as <- <-; (split; [split; [done|]; apply Sp; done|]); done.
  - destruct (m_timers (fm_st y) !! n) as [t|]; injection E as <- <-; [|by split]. split; [|done]. split; [done|]. cbn. apply Forall_app. split.
    + eapply Forall_impl; [exact W|]. intros a. by apply wok_same.
    + constructor; [|by constructor]. by destruct t.
  - injection E as <- <-. split; [|done]. split; [done|]. apply Sp. cbn. split; [split_and!|].
    + by exists [].
    + intros t T g I. by destruct T as [-> | ->]; apply elem_of_nil in I.
    + intros t T I. exfalso. apply I. destruct T as [-> | ->]; unfold task; set_solver.
    + intros t T [= <-] k [K _]. by apply elem_of_dom.
  - destruct (fm_go y !! n) as [a|] eqn:G; [|injection E as <- <-; by split].
    destruct (gstep z c (fm_st y) a m stamp k) as [[s [b o1]]|] eqn:H; [|done]. injection E as <- <-.
    pose proof (Forall_lookup_1 _ _ _ _ W G) as Wa. destruct (gstep_wok _ _ _ _ _ _ _ _ Co F Wa H) as (L & B & U). split; [|done]. split; [done|]. cbn.
    assert (Wall : Forall (wok s) (fm_go y)) by (eapply Forall_impl; [exact W|]; intros; by eapply wok_less).
    destruct b; [by apply Forall_insert|by apply Forall_delete].
Qed.

Lemma inv_filed l y o : inv z c l y o -> filed (fm_st y).
Proof. intros ((A & _) & _) t i g G. by destruct (A t i g G). Qed.

Lemma frun_winv l1 l2 y1 o1 y2 o2 : inv z c l1 y1 o1 -> winv y1 -> (forall g, freceived l2 g -> ~ full_of e g) -> run y1 l2 = Some (y2, o2) ->
  forall d u, FUpdate d u ∈ o2 -> good_list u.
Proof.
  revert l1 y1 o1 o2. induction l2 as [|ev l IH]; intros l1 y1 o1 o2 I W R; cbn [frun].
  - intros [= <- <-] d u H. by apply elem_of_nil in H.
  - destruct (step y1 ev) as [[y3 o3]|] eqn:S; [|done]. destruct (run y3 l) as [[y4 o4]|] eqn:Q; [|done]. intros [= <- <-] d u H.
    destruct (fstep_winv y1 ev y3 o3) as [W3 U3]; [by eapply inv_filed|done| |done|].
    { intros g G. apply R. exists ev. split; [by left|done]. }
    apply elem_of_app in H as [H|H]; [by eapply U3|]. eapply (IH (l1 ++ [ev])%list y3 (o1 ++ o3)%list); [by eapply fstep_inv|done| |exact Q|exact H].
    intros g (x & X1 & X2). apply R. exists x. split; [by right|done].
Qed.

Lemma fine_withholds l1 y1 o1 l2 y2 o2 d u : run fm_init l1 = Some (y1, o1) ->
  is_Some (m_con (fm_st y1) !! con_key e) -> (forall a, a ∈ fm_go y1 -> ~ busy_for e a) -> (forall g, freceived l2 g -> ~ full_of e g) ->
  run y1 l2 = Some (y2, o2) -> FUpdate d u ∈ o2 -> forall g, g ∈ u_sths u \/ g ∈ u_revs u -> g_p0 g <> e.
Proof.
  intros R1 Co B N R2 U g G. apply frun_inv in R1.
  assert (W : winv y1). { split; [done|]. apply Forall_forall. intros a A. specialize (B a A). by destruct a. }
  pose proof (frun_winv _ _ _ _ _ _ R1 W N R2 d u U) as H. destruct G as [G|G]; [by apply (H TSth (or_introl eq_refl))|by apply (H TRev (or_intror eq_refl))].
Qed.
End facts.
