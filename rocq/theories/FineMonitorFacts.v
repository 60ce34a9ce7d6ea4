(** A monitor whose goroutines interleave: what it stores, sends and publishes. *)
From Verif Require Import Bytes Types Crypto Verify VerifyFacts Bitset Revocation Clock Monitor MonitorMore FineMonitor SpecFineMonitor.
From Coq Require Import Lia.
Open Scope string_scope.

Global Instance tab_dec : EqDecision tab.
Proof. solve_decision. Defined.

Section facts.
Context {P : prims} (z : gzip) (c : mconf (P := P)).
Notation step := (fstep z c).
Notation run := (frun z c).

Lemma frun_snoc y l e : run y (l ++ [e]) =
  match run y l with None => None | Some (y1, o1) => match step y1 e with None => None | Some (y2, o2) => Some (y2, o1 ++ o2)%list end end.
Proof.
  revert y. induction l as [|a l IH]; intros y; cbn [frun app].
  - destruct (step y e) as [[y2 o2]|]; [|done]. by rewrite app_nil_r.
  - destruct (step y a) as [[y1 o1]|]; [|done]. rewrite IH. destruct (run y1 l) as [[y2 o2]|]; [|done].
    destruct (step y2 e) as [[y3 o3]|]; [|done]. by rewrite app_assoc.
Qed.

(** ** Provenance *)
Definition tkind (t : tab) (k : kind) : Prop :=
  match t with
  | TTemp => k = KObj (OInit Sth) \/ k = KObj (OInit Rev)
  | TSth => k = KObj (OFull Sth) | TRev => k = KObj (OFull Rev) | TConD => k = KObj OCon | TAccD => k = KObj (OFull Acc)
  end.

Definition filed_in (l : list fevent) (K : kind -> Prop) (t : gmap gid gobj) : Prop :=
  map_Forall (λ i g, get_id g = i /\ K (obj_kind g) /\ freceived l g) t.

Definition ulist (t : tab) (u : update) : list gobj :=
  match t with TTemp => [] | TSth => u_sths u | TRev => u_revs u | TConD => u_cons u | TAccD => u_accs u end.

Definition uok (l : list fevent) (u : update) : Prop :=
  forall t, Forall (λ g, freceived l g /\ tkind t (obj_kind g)) (ulist t u) /\ NoDup (map get_id (ulist t u)).

Definition uloop (l : list fevent) (j : job) (seen : gset gid) (rest : list job) (u : update) : Prop :=
  uok l u /\ NoDup (j :: rest) /\ (forall t, JCollect t ∈ rest -> ulist t u = []) /\
  (forall t, j = JCollect t -> forall g, g ∈ ulist t u -> get_id g ∈ seen).

Definition urls (f : fam) : list string := match f with Rev => mc_cas c | _ => mc_loggers c end.

Definition gok (l : list fevent) (a : goro) : Prop :=
  match a with
  | GDup g => freceived l g
  | GStore g => freceived l g /\ (tkind TTemp (obj_kind g) \/ tkind TSth (obj_kind g) \/ tkind TRev (obj_kind g) \/ tkind TConD (obj_kind g) \/ tkind TAccD (obj_kind g))
  | GDelta g => freceived l g /\ (obj_kind g = KObj OCon \/ obj_kind g = KObj (OFull Acc))
  | GSrh url g => FReply Rev url (Some g) ∈ l /\ verify (mc_crypto c) g = Accept
  | GTemp e _ | GAccuse e => bad_answer z c l e
  | GPomA w e | GPomC w e => match w with Asking f r => e ∈ urls f /\ r ⊆ urls f | _ => bad_answer z c l e end
  | GLoop j _ seen rest u => uloop l j seen rest u
  | GLook j _ _ seen rest u | GDel j _ _ seen rest u => uloop l j seen rest u
  | GPeriod u | GSave u => uok l u
  | _ => True
  end.

Definition sok (l : list fevent) (s : mst) : Prop :=
  (forall t, filed_in l (tkind t) (tget t s)) /\ filed_in l (eq (KObj OCon)) (m_con s) /\ filed_in l (eq (KObj (OFull Acc))) (m_acc s) /\
  Forall (λ t, match t with TAccuse e _ => bad_answer z c l e | _ => True end) (m_timers s).

Definition ook (l : list fevent) (o : fout) : Prop :=
  match o with
  | FSend g => (exists e m stamp, g = accusation c m stamp e /\ bad_answer z c l e) \/ forwards c l g
  | FUpdate _ u => honest_update l u
  | FAsk f u => u ∈ urls f
  end.

Lemma received_more l e g : freceived l g -> freceived (l ++ [e]) g.
Proof. intros (x & I & H). exists x. split; [|done]. apply elem_of_app. by left. Qed.
Lemma bad_more l e x : bad_answer z c l x -> bad_answer z c (l ++ [e]) x.
Proof. intros (f & r & I & H). exists f, r. split; [|done]. apply elem_of_app. by left. Qed.
Lemma uok_more l e u : uok l u -> uok (l ++ [e]) u.
Proof. intros H t. destruct (H t) as [A B]. split; [|done]. eapply Forall_impl; [exact A|]. intros g [G1 G2]. split; [by apply received_more|done]. Qed.
Lemma uloop_more l e j s r u : uloop l j s r u -> uloop (l ++ [e]) j s r u.
Proof. intros (A & B). split; [by apply uok_more|done]. Qed.
Lemma gok_more l e a : gok l a -> gok (l ++ [e]) a.
Proof.
  destruct a as [g|g|g|g|ca d|ca d|url g|x f|[ok| |f r] x|[ok| |f r] x|x|j todo seen rest u|j k todo seen rest u|j k todo seen rest u|u|u]; cbn;
    try done; try apply bad_more; try apply uloop_more; try apply uok_more; try apply received_more.
  - intros [H1 H2]. split; [by apply received_more|done].
  - intros [H1 H2]. split; [by apply received_more|done].
  - intros [H1 H2]. split; [|done]. apply elem_of_app. by left.
Qed.
Lemma filed_more l e K t : filed_in l K t -> filed_in (l ++ [e]) K t.
Proof. intros H i g E. destruct (H i g E) as (A & B & C). split_and!; [done|done|by apply received_more]. Qed.
Lemma sok_more l e s : sok l s -> sok (l ++ [e]) s.
Proof.
  intros (A & B & C & D). split_and!; [intros t; by apply filed_more|by apply filed_more|by apply filed_more|].
  eapply Forall_impl; [exact D|]. intros [?|x f]; [done|apply bad_more].
Qed.
Lemma honest_more l e u : honest_update l u -> honest_update (l ++ [e]) u.
Proof.
  intros (A1 & A2 & B1 & B2 & C1 & C2 & D1 & D2).
  split_and!; try done; intros g G; [apply A1 in G|apply B1 in G|apply C1 in G|apply D1 in G]; destruct G; (split; [by apply received_more|done]).
Qed.
Lemma ook_more l e o : ook l o -> ook (l ++ [e]) o.
Proof.
  destruct o as [g|f u|d u]; cbn; [|done|apply honest_more]. intros [(x & m & st & E & B)|(V & (f & u & I) & H)].
  - left. exists x, m, st. split; [done|by apply bad_more].
  - right. split; [done|]. split; [|done]. exists f, u. apply elem_of_app. by left.
Qed.

Lemma uok_honest l u : uok l u -> honest_update l u.
Proof.
  intros H. destruct (H TSth) as [A1 A2], (H TRev) as [B1 B2], (H TConD) as [C1 C2], (H TAccD) as [D1 D2]. cbn in *. rewrite Forall_forall in A1, B1, C1, D1.
  split_and!; try done; intros g G; [apply A1 in G|apply B1 in G|apply C1 in G|apply D1 in G]; destruct G as [G1 G2]; (split; [done|]); by apply obj_kind_obj in G2.
Qed.

Lemma filed_insert l K t g : filed_in l K t -> K (obj_kind g) -> freceived l g -> filed_in l K (<[get_id g := g]> t).
Proof. intros H1 H2 H3. apply map_Forall_insert_2; [done|done]. Qed.
Lemma filed_delete l K t k : filed_in l K t -> filed_in l K (delete k t).
Proof. apply map_Forall_delete. Qed.

Lemma tget_tset t t' s v : tget t' (tset t s v) = if decide (t = t') then v else tget t' s.
Proof. by destruct s, t, t'. Qed.
Lemma tset_others t s v : m_con (tset t s v) = m_con s /\ m_acc (tset t s v) = m_acc s /\ m_timers (tset t s v) = m_timers s /\ m_crv (tset t s v) = m_crv s.
Proof. by destruct s, t. Qed.

Lemma sok_tset l t s v : sok l s -> filed_in l (tkind t) v -> sok l (tset t s v).
Proof.
  intros (A & B & C & D) H. destruct (tset_others t s v) as (E1 & E2 & E3 & _). unfold sok. rewrite E1, E2, E3. split_and!; try done.
  intros t'. rewrite tget_tset. destruct (decide (t = t')) as [<-|]; [done|apply A].
Qed.
Lemma sok_con l s v : sok l s -> filed_in l (eq (KObj OCon)) v -> sok l (set_con s v).
Proof. intros (A & B & C & D) H. split_and!; done. Qed.
Lemma sok_acc l s v : sok l s -> filed_in l (eq (KObj (OFull Acc))) v -> sok l (set_acc s v).
Proof. intros (A & B & C & D) H. split_and!; done. Qed.
Lemma sok_timers l s v : sok l s -> Forall (λ t, match t with TAccuse e _ => bad_answer z c l e | _ => True end) v -> sok l (set_timers s v).
Proof. intros (A & B & C & D) H. split_and!; done. Qed.
Lemma sok_crv l s v : sok l s -> sok l (set_crv s v).
Proof. intros (A & B & C & D). split_and!; done. Qed.

Lemma begin_ok l rest u s : uok l u -> NoDup rest -> (forall t, JCollect t ∈ rest -> ulist t u = []) -> gok l (begin rest u s).
Proof.
  intros H N E. destruct rest as [|j r]; cbn; [done|]. split_and!; [done|done| |].
  - intros t I. apply E. by right.
  - intros t -> g G. rewrite (E t) in G by by left. by apply elem_of_nil in G.
Qed.

Lemma ulist_collect t t' o u : ulist t' (collect t o u) = if decide (t = t' /\ t <> TTemp) then (ulist t' u ++ [o])%list else ulist t' u.
Proof. destruct u, t, t'; reflexivity. Qed.

Lemma collect_ok l t k o todo seen rest u s : sok l s -> uloop l (JCollect t) seen rest u -> k ∉ seen -> tget t s !! k = Some o ->
  gok l (GLoop (JCollect t) todo ({[k]} ∪ seen) rest (collect t o u)).
Proof.
  intros (S & _) (U & N & R & E) K T. destruct (S t k o T) as (I & J & V). cbn. split_and!; [|done| |].
  - intros t'. rewrite ulist_collect. destruct (U t') as [U1 U2]. destruct (decide _) as [[<- _]|]; [|done]. split.
    + apply Forall_app. split; [done|]. by constructor.
    + rewrite map_app. apply NoDup_app. split_and!; [done| |repeat constructor; by intros ?%elem_of_nil].
      intros i Hi Hk. apply elem_of_list_singleton in Hk. subst i. apply elem_of_list_fmap in Hi as (g & Hg & Gi).
      apply (E t eq_refl) in Gi. rewrite <- Hg, I in Gi. done.
  - intros t' I'. rewrite ulist_collect. destruct (decide _) as [[-> _]|]; [|by apply R]. apply NoDup_cons in N as [N _]. done.
  - intros t' [= <-] g G. rewrite ulist_collect in G. destruct (decide _) as [_|D].
    + apply elem_of_app in G as [G|G]; [apply elem_of_union; right; by apply (E t)|].
      apply elem_of_list_singleton in G. subst g. rewrite I. set_solver.
    + apply elem_of_union. right. by apply (E t).
Qed.

Lemma uloop_seen l j seen seen' rest u : uloop l j seen rest u -> seen ⊆ seen' -> uloop l j seen' rest u.
Proof. intros (A & B & C & D) S. split_and!; try done. intros t E g G. apply S. by eapply D. Qed.

Lemma valid_ok l g a o : valid c g = (a, o) -> freceived l g -> (verify (mc_crypto c) g = Accept /\ exists f u, FReply f u (Some g) ∈ l) ->
  match a with Some a => gok l a | None => True end /\ Forall (ook l) o.
Proof.
  unfold valid. intros E R V. destruct (obj_kind g) as [[[]| |[]]|[]|] eqn:K; injection E as <- <-; cbn; rewrite ?K; (split; [|try by constructor]); try done; try (split; [done|]; tauto).
  - destruct (is_logger c (g_signer g)) eqn:L; [|by constructor]. constructor; [|by constructor]. right. split; [apply V|]. split; [apply V|].
    left. apply obj_kind_obj in K. split; [done|]. apply existsb_exists in L as (x & I & Q). apply String.eqb_eq in Q. subst x. by apply elem_of_list_In.
  - destruct (is_authority c (g_signer g)) eqn:L; [|by constructor]. constructor; [|by constructor]. right. split; [apply V|]. split; [apply V|].
    right. apply obj_kind_obj in K. split; [done|]. apply existsb_exists in L as (x & I & Q). apply String.eqb_eq in Q. subst x. by apply elem_of_list_In.
Qed.

Lemma valid_gossip l g a o : valid c g = (a, o) -> freceived l g -> obj_kind g <> KObj (OInit Sth) -> obj_kind g <> KObj (OInit Rev) ->
  match a with Some a => gok l a | None => True end /\ Forall (ook l) o.
Proof.
  unfold valid. intros E R N1 N2. destruct (obj_kind g) as [[[]| |[]]|[]|] eqn:K; injection E as <- <-; cbn; rewrite ?K; (split; [|try by constructor]); try done; (split; [done|]; tauto).
Qed.

Lemma asking_ok l f r : r ⊆ urls f -> match asking f r with Some b => gok l b | None => True end.
Proof. intros H. destruct r as [|e r]; cbn; [done|]. split; set_solver. Qed.

Lemma answer_ok l w e b a o : match w with Asking f r => e ∈ urls f /\ r ⊆ urls f | _ => bad_answer z c l e end -> answer w e b = (a, o) ->
  match a with Some a => gok l a | None => True end /\ Forall (ook l) o.
Proof.
  intros H E. destruct w as [ok| |f r]; cbn in E; injection E as <- <-.
  - split; [|by constructor]. by destruct (_ && _).
  - split; [|by constructor]. by destruct b.
  - destruct H as [H1 H2]. split; [by apply asking_ok|]. destruct b; repeat constructor. done.
Qed.

Lemma gloop_ok l s j todo seen rest u m k (Sk : sok l s) (G : uloop l j seen rest u) b o s' :
  gstep z c s (GLoop j todo seen rest u) m "" k = Some (s', (b, o)) -> s' = s /\ o = [] /\ match b with Some b => gok l b | None => True end.
Proof.
  cbn [gstep]. intros E. injection E as <- <- <-. split_and!; [done|done|].
  assert (B : gok l (begin rest u s)).
  { destruct G as (U & N & R & _). apply NoDup_cons in N as [_ N]. by apply begin_ok. }
  destruct (bool_decide (k ∈ seen)) eqn:K.
  { match goal with |- context [@bool_decide (todo = ∅) ?d] => destruct (@bool_decide (todo = ∅) d) end; [exact B|exact G]. }
  apply bool_decide_eq_false in K. destruct (tget (jtab j) s !! k) as [x|] eqn:T.
  - assert (G' : uloop l j ({[k]} ∪ seen) rest u) by (eapply uloop_seen; [exact G|set_solver]).
    destruct j; cbn [gok]; try done.
    + destruct (String.eqb _ _); exact G'.
    + exact (collect_ok l _ k x todo seen rest u s Sk G K T).
  - match goal with |- context [@bool_decide (todo = ∅) ?d] => destruct (@bool_decide (todo = ∅) d) end; [exact B|exact G].
Qed.

Lemma gstep_ok l s a m stamp k s' b o : sok l s -> gok l a -> gstep z c s a m stamp k = Some (s', (b, o)) ->
  sok l s' /\ match b with Some b => gok l b | None => True end /\ Forall (ook l) o.
Proof.
  intros S G E. pose proof S as (S1 & S2 & S3 & S4).
  destruct a as [g|g|g|g|ca d|ca d|url g|x f|w x|w x|x|j todo seen rest u|j i todo seen rest u|j i todo seen rest u|u|u].
  - cbn [gstep gok] in *. injection E as <- E. split; [done|]. destruct (is_duplicate s g).
    { by injection E as <- <-. }
    destruct (obj_kind g) as [[[]| |[]]|[]|] eqn:K; try (apply (valid_gossip l g); [done|done|rewrite K; done|rewrite K; done]);
      injection E as <- <-; cbn; rewrite K; (split; [|done]); (split; [done|]); left; auto.
  - cbn [gstep gok] in *. destruct G as [G1 G2]. 
    destruct (obj_kind g) as [[[]| |[]]|[]|] eqn:K; cbn in G2; try (exfalso; naive_solver);
      injection E as <- <- <-; (split; [|split; [|by constructor]]); try done; try (cbn; rewrite K; tauto); try done.
    + apply (sok_tset l TTemp); [done|]. apply filed_insert; [apply (S1 TTemp)|rewrite K; by left|done].
    + apply (sok_tset l TTemp); [done|]. apply filed_insert; [apply (S1 TTemp)|rewrite K; by right|done].
    + apply sok_con; [done|]. by apply filed_insert.
    + apply (sok_tset l TSth); [done|]. apply filed_insert; [apply (S1 TSth)|by rewrite K|done].
    + apply (sok_tset l TRev); [done|]. apply filed_insert; [apply (S1 TRev)|by rewrite K|done].
    + apply sok_acc; [done|]. by apply filed_insert.
  - cbn [gstep gok] in *. destruct G as [G1 [K|K]]; rewrite K in E; injection E as <- <- <-; (split; [|split; [done|by constructor]]).
    + apply sok_tset; [done|]. apply filed_insert; [apply (S1 TConD)|by rewrite K|done].
    + apply sok_tset; [done|]. apply filed_insert; [apply (S1 TAccD)|by rewrite K|done].
  - cbn [gstep] in E. injection E as <- <- <-. split; [|split; [done|by constructor]]. apply sok_timers; [done|]. apply Forall_app. split; [done|]. by repeat constructor.
  - cbn [gstep] in E. injection E as <- <- <-. split; [done|]. split; [|by constructor]. by destruct (m_crv s !! ca).
  - cbn [gstep] in E. injection E as <- <- <-. split; [by apply sok_crv|]. split; [done|by constructor].
  - cbn [gstep gok] in *. destruct G as [G V]. destruct (check_rev z c s g) eqn:R.
    + injection E as <- E. split; [done|]. apply (valid_ok l g); [done| |].
      * exists (FReply Rev url (Some g)). split; [done|]. right. by exists Rev, url.
      * split; [done|]. by exists Rev, url.
    + injection E as <- <- <-. split; [|split; [done|by constructor]]. apply sok_timers; [done|]. apply Forall_app. split; [done|]. constructor; [|by constructor].
      exists Rev, (Some g). split; [done|]. right. exists g. split; [done|]. right. split; [done|]. exists (m_crv s !! g_p0 g).
      unfold check_rev in R. by destruct (srh_and_dcrv z g).
    + done.
  - cbn [gstep gok] in *. injection E as <- <- <-. split; [done|]. split; [done|by constructor].
  - cbn [gstep gok] in *. injection E as <- E. split; [done|]. destruct (bool_decide _).
    + by eapply answer_ok.
    + injection E as <- <-. split; [done|by constructor].
  - cbn [gstep gok] in *. injection E as <- E. split; [done|]. by eapply answer_ok.
  - cbn [gstep gok] in *. injection E as <- <- <-. split; [done|]. split; [done|]. constructor; [|by constructor]. left. by exists x, m, stamp.
  - apply gloop_ok with (l := l) in E; [|done|done]. destruct E as (-> & -> & H). by split_and!.
  - cbn [gstep gok] in *. injection E as <- <- <-. split; [done|]. split; [|by constructor]. destruct (bool_decide _); exact G.
  - cbn [gstep gok] in *. injection E as <- <- <-. split; [|split; [exact G|by constructor]]. apply sok_tset; [done|]. by apply filed_delete.
  - cbn [gstep gok] in *. injection E as <- <- <-. split; [done|]. split; [|by constructor]. intros t. specialize (G t). by destruct t.
  - cbn [gstep gok] in *. injection E as <- <- <-. split; [done|]. split; [done|]. constructor; [|by constructor]. by apply uok_honest.
Qed.

Definition inv (l : list fevent) (y : fmon) (o : list fout) : Prop := sok l (fm_st y) /\ Forall (gok l) (fm_go y) /\ Forall (ook l) o.

Lemma inv_more l e y o : inv l y o -> inv (l ++ [e]) y o.
Proof.
  intros (A & B & C). split_and!; [by apply sok_more|eapply Forall_impl; [exact B|intros; by apply gok_more]|eapply Forall_impl; [exact C|intros; by apply ook_more]].
Qed.

Lemma spawn_ok l y a : Forall (gok l) (fm_go y) -> match a with Some a => gok l a | None => True end -> Forall (gok l) (fm_go (spawn y a)).
Proof. intros H G. cbn. apply Forall_app. split; [done|]. destruct a; by repeat constructor. Qed.

Lemma empty_ok l : uok l (empty_update c).
Proof. intros []; cbn; split; constructor. Qed.

Lemma task_nodup : NoDup task.
Proof. unfold task. repeat (apply NoDup_cons; split; [set_solver|]). apply NoDup_nil. done. Qed.
Lemma empty_list t : ulist t (empty_update c) = [].
Proof. by destruct t. Qed.

Lemma fstep_inv l y o e y' o' : inv l y o -> step y e = Some (y', o') -> inv (l ++ [e]) y' (o ++ o').
Proof.
  intros I E. apply (inv_more l e) in I as (A & B & C).
  assert (L : e ∈ (l ++ [e])%list) by (apply elem_of_app; right; by left).
  destruct e as [g|f|f url r|n| |n m stamp k]; cbn [fstep] in E.
  - injection E as <- <-. rewrite app_nil_r. split; [done|]. split; [|done]. apply spawn_ok; [done|]. exists (FGossip g). split; [done|by left].
  - injection E as <- <-. rewrite app_nil_r. split; [done|]. split; [|done]. apply spawn_ok; [done|]. by apply (asking_ok _ f).
  - unfold on_reply in E.
    assert (Bad : forall y1 o1, (r = None \/ exists g, r = Some g /\ verify (mc_crypto c) g = Reject) ->
      Some (mkfm (wait_then_accuse (fm_st y) url f) (fm_go y), []) = Some (y1, o1) -> inv (l ++ [FReply f url r]) y1 (o ++ o1)).
    { intros y1 o1 H [= <- <-]. rewrite app_nil_r. split; [|by split]. cbn. apply sok_timers; [done|]. apply Forall_app. split; [apply A|].
      constructor; [|by constructor]. exists f, r. split; [done|]. destruct H as [H|(g & H1 & H2)]; [by left|right]. exists g. split; [done|by left]. }
    destruct r as [g|]; [|apply Bad; [by left|exact E]].
    destruct (verify (mc_crypto c) g) eqn:V; [| |done]; [|apply Bad; [right; by exists g|exact E]].
    assert (D : y' = spawn y (Some (GSrh url g)) /\ o' = [] /\ f = Rev \/ y' = spawn y (fst (valid c g)) /\ o' = snd (valid c g)).
    { destruct f; injection E as <- <-; auto. }
    destruct D as [(-> & -> & ->)|(-> & ->)].
    + rewrite app_nil_r. split; [done|]. split; [|done]. apply spawn_ok; [done|]. by split.
    + destruct (valid c g) as [a o1] eqn:W. apply valid_ok with (l := (l ++ [FReply f url (Some g)])%list) in W as [W1 W2].
      * split; [done|]. split; [by apply spawn_ok|]. by apply Forall_app.
      * exists (FReply f url (Some g)). split; [done|]. right. by exists f, url.
      * split; [done|]. by exists f, url.
  - destruct (m_timers (fm_st y) !! n) as [t|] eqn:T; injection E as <- <-; rewrite app_nil_r; [|by split_and!].
    pose proof A as (_ & _ & _ & A4). split; [|split; [|done]].
    + cbn. apply sok_timers; [done|]. by apply Forall_delete.
    + apply spawn_ok; [done|]. eapply Forall_lookup_1 in T; [|exact A4]. by destruct t.
  - injection E as <- <-. rewrite app_nil_r. split; [done|]. split; [|done]. apply spawn_ok; [done|]. exact (begin_ok _ task _ (fm_st y) (empty_ok _) task_nodup (λ t _, empty_list t)).
  - destruct (fm_go y !! n) as [a|] eqn:G; [|injection E as <- <-; rewrite app_nil_r; by split_and!].
    destruct (gstep z c (fm_st y) a m stamp k) as [[s [b o1]]|] eqn:H; [|done]. injection E as <- <-.
    pose proof (Forall_lookup_1 _ _ _ _ B G) as Ga. destruct (gstep_ok _ _ _ _ _ _ _ _ _ A Ga H) as (H1 & H2 & H3).
    split; [done|]. split; [|by apply Forall_app]. cbn. destruct b; [by apply Forall_insert|by apply Forall_delete].
Qed.

Lemma frun_inv l y o : run fm_init l = Some (y, o) -> inv l y o.
Proof.
  revert y o. induction l as [|e l IH] using rev_ind; intros y o E.
  - injection E as <- <-. split; [|split; constructor].
    split_and!; [intros []; apply map_Forall_empty|apply map_Forall_empty|apply map_Forall_empty|constructor].
  - rewrite frun_snoc in E. destruct (run fm_init l) as [[y1 o1]|]; [|done]. destruct (step y1 e) as [[y2 o2]|] eqn:S; [|done]. injection E as <- <-.
    eapply fstep_inv; [by apply IH|done].
Qed.

(** ** Counting accusations *)
Definition gpend (x : string) (a : goro) : bool :=
  match a with
  | GSrh e _ | GTemp e _ | GAccuse e => String.eqb e x
  | GPomA w e | GPomC w e => match w with Asking _ _ => false | _ => String.eqb e x end
  | _ => false
  end.
Definition tpend (x : string) (t : timer) : bool := match t with TAccuse e _ => String.eqb e x | _ => false end.
Definition count {A} (f : A -> bool) (l : list A) : nat := length (List.filter f l).
Definition b2n (b : bool) : nat := if b then 1 else 0.
Definition opend (x : string) (a : option goro) : nat := match a with Some a => b2n (gpend x a) | None => 0 end.

Lemma count_app {A} (f : A -> bool) l1 l2 : count f (l1 ++ l2) = count f l1 + count f l2.
Proof. apply filter_len_app. Qed.
Lemma count_delete {A} (f : A -> bool) l n a : l !! n = Some a -> count f (delete n l) + b2n (f a) = count f l.
Proof. apply filter_delete. Qed.
Lemma count_insert {A} (f : A -> bool) l n a b : l !! n = Some a -> count f (<[n := b]> l) + b2n (f a) = count f l + b2n (f b).
Proof.
  unfold count. revert n. induction l as [|d l IH]; intros [|n]; cbn; [done..| |].
  - intros [= ->]. destruct (f a), (f b); cbn; lia.
  - intros H. specialize (IH n H). unfold insert in *. destruct (f d); cbn; lia.
Qed.
Lemma count_one {A} (f : A -> bool) a : count f [a] = b2n (f a).
Proof. unfold count. cbn. by destruct (f a). Qed.
Lemma count_nil {A} (f : A -> bool) : count f [] = 0.
Proof. done. Qed.

Local Arguments count {A} f l : simpl never.

Lemma valid_count x g : opend x (fst (valid c g)) = 0 /\ count (accuses_b x) (snd (valid c g)) = 0.
Proof.
  unfold valid. destruct (obj_kind g) as [[[]| |[]]|[]|] eqn:K; try done; (split; [done|]); apply obj_kind_obj in K; cbn [snd];
    [destruct (is_logger c _)|destruct (is_authority c _)]; try done; rewrite count_one; cbn [accuses_b]; by rewrite K.
Qed.

Lemma asking_count x f r : opend x (asking f r) = 0.
Proof. by destruct r. Qed.

Lemma answer_count x w e b : opend x (fst (answer w e b)) + count (accuses_b x) (snd (answer w e b)) <=
  match w with Asking _ _ => 0 | _ => b2n (String.eqb e x) end.
Proof.
  destruct w as [ok| |f r]; cbn [answer fst snd].
  - destruct (_ && _); cbn; rewrite ?count_nil; lia.
  - destruct b; cbn; rewrite ?count_nil; lia.
  - rewrite asking_count. by destruct b.
Qed.

Lemma timers_tset t s v : m_timers (tset t s v) = m_timers s.
Proof. by destruct s, t. Qed.

Lemma gstep_count x s a m stamp k s' b o : gstep z c s a m stamp k = Some (s', (b, o)) ->
  count (accuses_b x) o + opend x b + count (tpend x) (m_timers s') <= b2n (gpend x a) + count (tpend x) (m_timers s).
Proof.
  intros E.
  destruct a as [g|g|g|g|ca d|ca d|url g|e f|w e|w e|e|j todo seen rest u|j i todo seen rest u|j i todo seen rest u|u|u]; cbn [gstep] in E.
  - injection E as <- E. destruct (valid_count x g) as [V1 V2]. destruct (valid c g) as [va vo]. cbn [fst snd] in V1, V2.
    destruct (is_duplicate s g); [injection E as <- <-; cbn; rewrite ?count_nil; lia|].
    destruct (obj_kind g) as [[[]| |[]]|[]|]; injection E as <- <-; try (cbn; rewrite ?count_nil; lia); rewrite V1, V2; lia.
  - injection E as E. destruct (obj_kind g) as [[[]| |[]]|[]|]; injection E as <- <- <-; rewrite ?timers_tset; try (cbn; rewrite ?count_nil; lia); done.
  - injection E as <- <- <-. rewrite timers_tset. cbn. rewrite ?count_nil. lia.
  - injection E as <- <- <-. cbn [m_timers set_timers]. rewrite count_app, count_one. cbn. rewrite ?count_nil. lia.
  - injection E as <- <- <-. destruct (m_crv s !! ca); cbn; rewrite ?count_nil; lia.
  - injection E as <- <- <-. cbn. rewrite ?count_nil. lia.
  - destruct (check_rev z c s g); [| |done].
    + injection E as <- E. destruct (valid_count x g) as [V1 V2]. rewrite E in V1, V2. cbn [fst snd] in V1, V2. rewrite V1, V2. lia.
    + injection E as <- <- <-. cbn [m_timers set_timers wait_then_accuse]. rewrite count_app, count_one. cbn. rewrite ?count_nil. lia.
  - injection E as <- <- <-. cbn. rewrite ?count_nil. lia.
  - injection E as <- E. pose proof (answer_count x w e true) as A. destruct (bool_decide _).
    + rewrite E in A. cbn [fst snd] in A. cbn [gpend]. destruct w; cbn [b2n]; lia.
    + injection E as <- <-. cbn. destruct w; cbn; rewrite ?count_nil; lia.
  - injection E as <- E. pose proof (answer_count x w e (bool_decide (is_Some (m_con s !! con_key e)))) as A.
    rewrite E in A. cbn [fst snd] in A. cbn [gpend]. destruct w; cbn [b2n]; lia.
  - injection E as <- <- <-. rewrite count_one. cbn. rewrite ?count_nil. lia.
  - injection E as <- <- <-. cbn [gpend b2n].
    match goal with |- context [opend x (Some ?v)] => assert (V : gpend x v = false) end.
    { assert (B : gpend x (begin rest u s) = false) by (by destruct rest).
      destruct (bool_decide (k ∈ seen)).
      - match goal with |- context [@bool_decide (todo = ∅) ?d] => destruct (@bool_decide (todo = ∅) d) end; [exact B|done].
      - destruct (tget (jtab j) s !! k).
        + destruct j; try done. by destruct (String.eqb _ _).
        + match goal with |- context [@bool_decide (todo = ∅) ?d] => destruct (@bool_decide (todo = ∅) d) end; [exact B|done]. }
    cbn [opend]. rewrite V, count_nil. cbn. rewrite ?count_nil. lia.
  - injection E as <- <- <-. destruct (bool_decide _); cbn; rewrite ?count_nil; lia.
  - injection E as <- <- <-. rewrite timers_tset. cbn. rewrite ?count_nil. lia.
  - injection E as <- <- <-. cbn. rewrite ?count_nil. lia.
  - injection E as <- <- <-. rewrite count_one. cbn. lia.
Qed.

Definition total (x : string) (y : fmon) (o : list fout) : nat :=
  count (accuses_b x) o + count (gpend x) (fm_go y) + count (tpend x) (m_timers (fm_st y)).

Lemma spawn_count x y a : count (gpend x) (fm_go (spawn y a)) = count (gpend x) (fm_go y) + opend x a.
Proof. unfold spawn. cbn [fm_go]. rewrite count_app. destruct a; [by rewrite count_one|done]. Qed.

Lemma fstep_count x y o e y' o' : step y e = Some (y', o') -> total x y' (o ++ o') <= total x y o + b2n (answer_of x e).
Proof.
  unfold total. intros E. rewrite count_app. destruct e as [g|f|f url r|n| |n m stamp k]; cbn [fstep answer_of] in *.
  - injection E as <- <-. rewrite spawn_count. cbn. rewrite ?count_nil. lia.
  - injection E as <- <-. rewrite spawn_count, asking_count. cbn. rewrite ?count_nil. lia.
  - unfold on_reply in E.
    assert (Bad : Some (mkfm (wait_then_accuse (fm_st y) url f) (fm_go y), []) = Some (y', o') ->
      count (accuses_b x) o + count (accuses_b x) o' + count (gpend x) (fm_go y') + count (tpend x) (m_timers (fm_st y')) <=
      count (accuses_b x) o + count (gpend x) (fm_go y) + count (tpend x) (m_timers (fm_st y)) + b2n (String.eqb url x)).
    { intros [= <- <-]. cbn [fm_go fm_st wait_then_accuse m_timers set_timers]. rewrite count_app, count_one. cbn. rewrite ?count_nil. lia. }
    destruct r as [g|]; [|by apply Bad]. destruct (verify (mc_crypto c) g); [|by apply Bad|done].
    destruct (valid_count x g) as [V1 V2].
    destruct f; injection E as <- <-; rewrite spawn_count; cbn [spawn fm_st]; rewrite ?V1, ?V2, ?count_nil; cbn; rewrite ?count_nil; lia.
  - destruct (m_timers (fm_st y) !! n) as [t|] eqn:T; injection E as <- <-; [|cbn; rewrite ?count_nil; lia].
    rewrite spawn_count. cbn [spawn fm_st fm_go m_timers set_timers]. pose proof (count_delete (tpend x) _ _ _ T) as D. rewrite count_nil. destruct t; cbn in *; rewrite ?count_nil; lia.
  - injection E as <- <-. rewrite spawn_count. cbn. rewrite ?count_nil. lia.
  - destruct (fm_go y !! n) as [a|] eqn:G; [|injection E as <- <-; cbn; rewrite ?count_nil; lia].
    destruct (gstep z c (fm_st y) a m stamp k) as [[s [b o1]]|] eqn:H; [|done]. injection E as <- <-. cbn [fm_st fm_go].
    pose proof (gstep_count x _ _ _ _ _ _ _ _ H) as K. destruct b as [b|]; cbn [opend] in K.
    + pose proof (count_insert (gpend x) _ _ _ b G). cbn. rewrite ?count_nil. lia.
    + pose proof (count_delete (gpend x) _ _ _ G). cbn. rewrite ?count_nil. lia.
Qed.

Lemma frun_count x l y o : run fm_init l = Some (y, o) -> total x y o <= answers x l.
Proof.
  revert y o. induction l as [|e l IH] using rev_ind; intros y o E.
  - by injection E as <- <-.
  - rewrite frun_snoc in E. destruct (run fm_init l) as [[y1 o1]|]; [|done]. destruct (step y1 e) as [[y2 o2]|] eqn:S; [|done]. injection E as <- <-.
    pose proof (fstep_count x y1 o1 e y2 o2 S). specialize (IH _ _ eq_refl). unfold answers in *. rewrite filter_len_app.
    cbn [List.filter]. destruct (answer_of x e); cbn in *; rewrite ?count_nil; lia.
Qed.

(** ** The statements *)
Lemma fine_stored l y o : run fm_init l = Some (y, o) ->
  (forall i g, m_sth (fm_st y) !! i = Some g -> get_id g = i /\ g_type g = STH_FULL /\ freceived l g) /\
  (forall i g, m_rev (fm_st y) !! i = Some g -> get_id g = i /\ g_type g = REV_FULL /\ freceived l g) /\
  (forall i g, m_con (fm_st y) !! i = Some g -> get_id g = i /\ g_type g = CON_INIT /\ freceived l g) /\
  (forall i g, m_acc (fm_st y) !! i = Some g -> get_id g = i /\ g_type g = ACC_FULL /\ freceived l g) /\
  (forall i g, m_temp (fm_st y) !! i = Some g -> get_id g = i /\ (g_type g = STH_INIT \/ g_type g = REV_INIT) /\ freceived l g).
Proof.
  intros E. apply frun_inv in E as ((A & B & C & _) & _).
  split_and!; intros i g G; [apply (A TSth) in G|apply (A TRev) in G|apply B in G|apply C in G|apply (A TTemp) in G];
    destruct G as (G1 & G2 & G3); (split; [done|]); (split; [|done]).
  - by apply obj_kind_obj in G2.
  - by apply obj_kind_obj in G2.
  - symmetry in G2. by apply obj_kind_obj in G2.
  - symmetry in G2. by apply obj_kind_obj in G2.
  - destruct G2 as [G2|G2]; apply obj_kind_obj in G2; [by left|by right].
Qed.

Lemma fine_sent l y o g : run fm_init l = Some (y, o) -> FSend g ∈ o ->
  (exists e m stamp, g = accusation c m stamp e /\ bad_answer z c l e) \/ forwards c l g.
Proof. intros E G. apply frun_inv in E as (_ & _ & O). rewrite Forall_forall in O. by apply O in G. Qed.

Lemma fine_asked l y o f u : run fm_init l = Some (y, o) -> FAsk f u ∈ o -> u ∈ match f with Rev => mc_cas c | _ => mc_loggers c end.
Proof. intros E G. apply frun_inv in E as (_ & _ & O). rewrite Forall_forall in O. by apply O in G. Qed.

Lemma fine_updates l y o d u : run fm_init l = Some (y, o) -> FUpdate d u ∈ o -> honest_update l u.
Proof. intros E G. apply frun_inv in E as (_ & _ & O). rewrite Forall_forall in O. by apply O in G. Qed.

Lemma fine_accusations x l y o : run fm_init l = Some (y, o) -> accusations x o <= answers x l.
Proof. intros E. pose proof (frun_count x l y o E) as H. unfold total in H. unfold accusations. unfold count in H. lia. Qed.
End facts.
