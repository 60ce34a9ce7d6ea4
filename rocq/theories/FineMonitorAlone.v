(** A monitor whose goroutines do not overlap does what Monitor.v says. *)
From Verif Require Import Bytes Types Crypto Verify VerifyFacts Bitset Revocation Clock Monitor MonitorMore FineMonitor SpecFineMonitor SpecFineMonitorAlone FineMonitorFacts FineMonitorMore.
From Coq Require Import Lia.
Open Scope string_scope.

Lemma flt {A} (Q : gid * A -> Prop) `{!forall x, Decision (Q x)} (t : gmap gid A) i :
  filter Q t !! i = match t !! i with Some x => if decide (Q (i, x)) then Some x else None | None => None end.
Proof.
  destruct (filter Q t !! i) as [x|] eqn:E.
  - apply map_filter_lookup_Some in E as [-> E]. by rewrite decide_True.
  - apply map_filter_lookup_None in E as [E|E]; [by rewrite E|]. destruct (t !! i) as [x|] eqn:F; [|done]. rewrite decide_False; [done|by apply E].
Qed.

Section alone.
Context {P : prims} (z : gzip) (c : mconf (P := P)) (m : nat) (stamp : string).
Notation run := (frun z c).

(** ** Handlers and timers *)
Notation st k := (FStep 0 m stamp k).
Notation sts k n := (repeat (FStep 0 m stamp k) n).

Definition ol (a : option goro) : list goro := match a with Some a => [a] | None => [] end.

(** The [n] steps of goroutine [a] alone. *)
Fixpoint solo (s : mst) (a : option goro) (k : gid) (n : nat) : option (mst * option goro * list fout) :=
  match n, a with
  | O, _ => Some (s, a, [])
  | _, None => Some (s, None, [])
  | S n, Some a =>
      match gstep z c s a m stamp k with
      | None => None
      | Some (s1, (b, o)) => match solo s1 b k n with None => None | Some (s2, b2, o2) => Some (s2, b2, (o ++ o2)%list) end
      end
  end.

Lemma run_none s k n : run (mkfm s []) (sts k n) = Some (mkfm s [], []).
Proof. induction n as [|n IH]; cbn; [done|]. by rewrite IH. Qed.

Lemma solo_run s a k n : run (mkfm s (ol a)) (sts k n) =
  match solo s a k n with None => None | Some (s', b, o) => Some (mkfm s' (ol b), o) end.
Proof.
  revert s a. induction n as [|n IH]; intros s a; [by destruct a|]. destruct a as [a|]; [|apply (run_none s k (S n))].
  change (ol (Some a)) with [a]. cbn [repeat frun fstep ol fm_go fm_st lookup list_lookup solo]. destruct (gstep z c s a m stamp k) as [[s1 [b o]]|]; [|done].
  replace (mkfm s1 match b with Some b0 => <[0:=b0]> [a] | None => delete 0 [a] end) with (mkfm s1 (ol b)) by (by destruct b).
  rewrite IH. by destruct (solo s1 b k n) as [[[? ?] ?]|].
Qed.

Definition alone (s : mst) (a : option goro) (k : gid) (s' : mst) (o : list fout) : Prop := exists n, solo s a k n = Some (s', None, o).

Lemma alone_done s k : alone s None k s [].
Proof. by exists 0. Qed.
Lemma alone_step s a k s1 b o s' o' o2 : gstep z c s a m stamp k = Some (s1, (b, o)) -> alone s1 b k s' o' -> o2 = (o ++ o')%list -> alone s (Some a) k s' o2.
Proof. intros E [n H] ->. exists (S n). cbn [solo]. by rewrite E, H. Qed.

Lemma alone_run s a k s' o : alone s a k s' o -> exists n, run (mkfm s (ol a)) (sts k n) = Some (mkfm s' [], o).
Proof. intros [n H]. exists n. by rewrite solo_run, H. Qed.

Lemma store_alone s g k : (exists f, obj_kind g = KObj (OFull f)) \/ obj_kind g = KObj OCon \/ obj_kind g = KObj (OInit Sth) \/ obj_kind g = KObj (OInit Rev) ->
  alone s (Some (GStore g)) k (store z s g) [].
Proof.
  intros K. unfold store. destruct s as [tm co ac cd ad sh rv cr ts fs].
  destruct (obj_kind g) as [[[]| |[]]|[]|] eqn:E; try (exfalso; naive_solver).
  all: eapply alone_step; [cbn [gstep]; rewrite E; reflexivity| |done]; try apply alone_done.
  all: eapply alone_step; [cbn [gstep]; rewrite ?E; reflexivity|apply alone_done|done].
Qed.

Lemma valid_alone s g k : alone s (fst (valid c g)) k (fst (process_valid z c s g)) [] /\ snd (valid c g) = map fo (snd (process_valid z c s g)).
Proof.
  unfold valid, process_valid. destruct (obj_kind g) as [[[]| |[]]|[]|] eqn:K; cbn [fst snd]; try (split; [apply alone_done|done]).
  - split; [apply alone_done|]. by destruct (is_logger c _).
  - split; [apply alone_done|]. by destruct (is_authority c _).
  - split; [|done]. apply store_alone. auto.
  - split; [|done]. apply store_alone. eauto.
  - split; [|done]. apply store_alone. eauto.
  - split; [|done]. apply store_alone. eauto.
Qed.

Lemma dup_alone s g k : alone s (Some (GDup g)) k (fst (handle_gossip z c s g)) (map fo (snd (handle_gossip z c s g))).
Proof.
  destruct (valid_alone s g k) as [V1 V2]. unfold handle_gossip. destruct (is_duplicate s g) eqn:D.
  { eapply alone_step; [cbn [gstep]; rewrite D; reflexivity|apply alone_done|done]. }
  destruct (valid c g) as [a o] eqn:V. cbn [fst snd] in V1, V2.
  destruct (obj_kind g) as [[[]| |[]]|[]|] eqn:K;
    (eapply alone_step; [cbn [gstep]; rewrite D, K, ?V; reflexivity| |]); try exact V1; try (by rewrite V2, app_nil_r); try done; apply store_alone; auto.
Qed.

Lemma gossip_alone s g k : exists n, run (mkfm s []) (FGossip g :: sts k n) = Some (mkfm (fst (handle_gossip z c s g)) [], map fo (snd (handle_gossip z c s g))).
Proof.
  destruct (alone_run _ _ _ _ _ (dup_alone s g k)) as [n H]. exists n. cbn [frun fstep]. change (spawn (mkfm s []) (Some (GDup g))) with (mkfm s [GDup g]). cbn [ol] in H. by rewrite H.
Qed.

Lemma reply_alone s f url r k s' o : handle_reply z c s f url r = Some (s', o) ->
  exists n, run (mkfm s []) (FReply f url r :: sts k n) = Some (mkfm s' [], map fo o).
Proof.
  intros E. unfold handle_reply in E. cbn [frun fstep]. unfold on_reply.
  assert (Bad : Some (wait_then_accuse s url f, []) = Some (s', o) -> exists n, run (mkfm (wait_then_accuse s url f) []) (sts k n) = Some (mkfm s' [], map fo o)).
  { intros [= <- <-]. exists 0. done. }
  destruct r as [g|]; [|destruct (Bad E) as [n H]; exists n; cbn [fm_st fm_go]; by rewrite H].
  destruct (verify (mc_crypto c) g); [|destruct (Bad E) as [n H]; exists n; cbn [fm_st fm_go]; by rewrite H|done].
  destruct (valid_alone s g k) as [V1 V2].
  assert (Pv : Some (process_valid z c s g) = Some (s', o) -> exists n, match run (spawn (mkfm s []) (fst (valid c g))) (sts k n) with
    | Some (y2, o2) => Some (y2, (snd (valid c g) ++ o2)%list) | None => None end = Some (mkfm s' [], map fo o)).
  { intros [= Ev]. rewrite Ev in V1, V2. cbn [fst snd] in V1, V2. destruct (alone_run _ _ _ _ _ V1) as [n H]. exists n.
    replace (spawn (mkfm s []) (fst (valid c g))) with (mkfm s (ol (fst (valid c g)))) by (by destruct (fst (valid c g))).
    by rewrite H, V2, app_nil_r. }
  destruct f; try (by apply Pv).
  destruct (check_rev z c s g) eqn:R; [| |done].
  - destruct (Pv E) as [n H]. exists (S n). cbn [repeat frun spawn fm_st fm_go app fstep lookup list_lookup gstep]. rewrite R.
    destruct (valid c g) as [a oo]. cbn [fst snd] in *. replace (mkfm s match a with Some b => <[0:=b]> [GSrh url g] | None => delete 0 [GSrh url g] end)
      with (spawn (mkfm s []) a) by (by destruct a). destruct (run (spawn (mkfm s []) a) (sts k n)) as [[y2 o2]|]; [|done]. exact H.
  - injection E as <- <-. exists 1. cbn [repeat frun spawn fm_st fm_go app fstep lookup list_lookup gstep]. rewrite R. done.
Qed.

Lemma reply_panics s f url r k : handle_reply z c s f url r = None -> exists n, run (mkfm s []) (FReply f url r :: sts k n) = None.
Proof.
  intros E. unfold handle_reply in E. cbn [frun fstep]. unfold on_reply. destruct r as [g|]; [|done].
  destruct (verify (mc_crypto c) g); [|done|by exists 0]. destruct f; try done. destruct (check_rev z c s g) eqn:R; [done|done|].
  exists 1. cbn [repeat frun spawn fm_st fm_go app fstep lookup list_lookup gstep]. by rewrite R.
Qed.

(** Check_entity_pom. *)
Lemma pom_alone s w e k s' o : alone s (fst (answer w e (has_pom s m e))) k s' o ->
  alone s (Some (GPomA w e)) k s' (snd (answer w e (has_pom s m e)) ++ o)%list.
Proof.
  unfold has_pom. intros H. destruct (bool_decide (is_Some (m_acc s !! acc_key m e))) eqn:A; cbn [orb] in *.
  - destruct (answer w e true) as [a o1] eqn:W. cbn [fst snd] in *. eapply alone_step; [cbn [gstep]; rewrite A, W; reflexivity|exact H|done].
  - destruct (answer w e (bool_decide (is_Some (m_con s !! con_key e)))) as [a o1] eqn:W. cbn [fst snd] in *.
    eapply alone_step; [cbn [gstep]; rewrite A; reflexivity| |reflexivity]. eapply alone_step; [cbn [gstep]; rewrite W; reflexivity|exact H|done].
Qed.

Lemma asking_alone s f urls k : alone s (asking f urls) k s (map fo (query s m f urls)).
Proof.
  induction urls as [|e r IH]; [apply alone_done|]. cbn [asking]. unfold query in *. cbn [List.filter].
  pose proof (pom_alone s (Asking f r) e k s _ IH) as H. cbn [answer fst snd] in H. destruct (has_pom s m e); cbn [negb map app] in *; exact H.
Qed.

Lemma query_alone s f k : exists n, run (mkfm s []) (FQuery f :: sts k n) = Some (mkfm s [], map fo (query s m f (match f with Rev => mc_cas c | _ => mc_loggers c end))).
Proof.
  destruct (alone_run _ _ _ _ _ (asking_alone s f (match f with Rev => mc_cas c | _ => mc_loggers c end) k)) as [n H]. exists n. cbn [frun fstep].
  set (u := match f with Rev => mc_cas c | _ => mc_loggers c end) in *.
  replace (spawn (mkfm s []) (asking f u)) with (mkfm s (ol (asking f u))) by (by destruct u). by rewrite H.
Qed.

Lemma accuse_alone s e f k : alone s (Some (GTemp e f)) k s (map fo (accuse_timer c s m stamp e f)).
Proof.
  unfold accuse_timer. eapply alone_step; [reflexivity| |reflexivity]. cbn [app].
  set (ok := bool_decide (is_Some (m_temp s !! mkgid (pad2 m) (init_type f) e))).
  eapply (eq_rect _ (λ o, alone s (Some (GPomA (First ok) e)) k s o)); [apply (pom_alone s (First ok) e k s (map fo (if negb (has_pom s m e) && negb ok then accuse c s m stamp e else [])))|done].
  cbn [answer fst]. destruct (negb (has_pom s m e) && negb ok) eqn:B; [|apply alone_done].
  unfold accuse. eapply (eq_rect _ (λ o, alone s (Some (GPomA Second e)) k s o)); [apply (pom_alone s Second e k s (map fo (if has_pom s m e then [] else [MSend (accusation c m stamp e)])))|done].
  cbn [answer fst]. destruct (has_pom s m e); [apply alone_done|]. eapply alone_step; [reflexivity|apply alone_done|done].
Qed.

Lemma fire_alone s n t k : m_timers s !! n = Some t ->
  exists j, run (mkfm s []) (FFire n :: sts k j) =
    Some (mkfm (fst (fire c (set_timers s (delete n (m_timers s))) m stamp t)) [], map fo (snd (fire c (set_timers s (delete n (m_timers s))) m stamp t))).
Proof.
  intros T. cbn [frun fstep fm_st fm_go]. rewrite T. set (s1 := set_timers s (delete n (m_timers s))). destruct t as [ca d|e f]; cbn [fire fst snd].
  - exists 2. unfold crv_timer. cbn [repeat frun spawn fm_st fm_go app fstep lookup list_lookup gstep]. destruct (m_crv s1 !! ca) eqn:D; [done|]. done.
  - destruct (alone_run _ _ _ _ _ (accuse_alone s1 e f k)) as [j H]. exists j. cbn [ol] in H. change (spawn (mkfm s1 []) (Some (GTemp e f))) with (mkfm s1 [GTemp e f]). by rewrite H.
Qed.
End alone.
