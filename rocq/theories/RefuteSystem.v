(** A small system: one logger, one CA, two monitors with a gossiper each, and a client. *)
From Verif Require Import Bytes Hex Json Types Crypto Verify Bitset Cert CertPool CTngExt Revocation Prog Gossiper Network Overlap System SpecGossiper SpecCodec SpecSystem Clock Toy RefuteGossiper GossiperSeq NetworkNode RefuteNetwork RefuteOverlap.
From Verif Require Logger CA Monitor Client.
From Verif Require Import RefuteLogger RefuteCA.
Open Scope string_scope.

Definition lg := "localhost:9100".
Definition ca := "localhost:9000".
Definition sys_rsa : gmap string string := <["m1" := "km1"]> (<["m2" := "km2"]> toy_rsa).
Definition sys_cc (self rsa : string) (bls : Z) : cconf toy := mkcconf toy 2 2 4 "rsa" "bls" self sys_rsa rsa toy_bls bls.
Definition sys_mon (self key : string) : @Monitor.mconf toy := Monitor.mkmconf (sys_cc self key 0) [lg] [ca] [lg] [ca] 0.
Definition toy_sys : sysconf toy := mksys
  {[ "g1" := mkgconf (sys_cc "g1" "" 1) ["g2"] "m1" 2 1 10000 false; "g2" := mkgconf (sys_cc "g2" "" 10) ["g1"] "m2" 2 1 10000 false ]}
  {[ lg := Logger.mklconf (P:=toy) lg [ca] "k1" ]}
  {[ ca := (CA.mkcaconf (P:=toy) ca [lg] ca "k3" "pk", sys_cc ca "k3" 0) ]}
  {[ "m1" := (sys_mon "m1" "km1", "g1"); "m2" := (sys_mon "m2" "km2", "g2") ]}
  {[ "c1" := sys_cc "c1" "" 0 ]}.
Definition start (period : string) : world :=
  world_init toy_x toy_sys period "s" "t" (λ _, (0, 0)%Z) (λ _, (0%Z, 0%Z, toy_draw 1 "a", toy_draw 2 "b")).
Notation sys_run := (wrun toy_z toy_x toy_sys).

(** Deliver everything and let every goroutine finish; [m] is the minute. *)
Fixpoint settle (m n : nat) (W : world) : list wevent :=
  match n with
  | 0 => []
  | S n =>
      let go e := e :: settle m n (wstep toy_z toy_x toy_sys W e) in
      match w_mail W with
      | _ :: _ => go (EDeliver 0 m)
      | [] =>
          match busy (w_net W) (λ y, negb (is_nil (p_threads y))) with
          | Some u => go (EGossip (ORun u 0))
          | None => match on_flight (w_net W) with
                    | _ :: _ => go (EGossip (ODeliver 0))
                    | [] => match busy (w_net W) (λ y, negb (is_nil (p_tasks y))) with Some u => go (EGossip (OStart u 0)) | None => [] end
                    end
          end
      end
  end.
Definition settled (m : nat) (W : world) (l : list wevent) : list wevent := (l ++ settle m 600 (sys_run W l))%list.

(** Minute 11: the CA issues two certificates, the logger publishes; minute 12: the monitors query, and publish an update that the client loads. *)
Definition issue_two : list wevent := [EIssue ca [toy_draw 3 "c"; toy_draw 4 "d"]].
Definition good1 : list wevent := Eval vm_compute in settled 11 (start "12") issue_two.
Definition good2 : list wevent := Eval vm_compute in settled 11 (start "12") (good1 ++ [EPublish lg (at_min 11) (at_min 11) (at_min 11); ECaPeriod ca [] 11])%list.
Definition good3 : list wevent := Eval vm_compute in settled 12 (start "12") (good2 ++ [EMonitor "m1" (Monitor.MQueryLoggers 12); EMonitor "m2" (Monitor.MQueryLoggers 12)])%list.
Definition good4 : list wevent := Eval vm_compute in (good3 ++ [EMonitor "m1" (Monitor.MFire 0 12 "t"); EMonitor "m2" (Monitor.MFire 0 12 "t"); EMonitor "m2" (Monitor.MPublish 12); ELoad "c1" "m2" "Period_12" true])%list.

(** Minute 59: the logger publishes; minute 0: the monitors query, their timers fire. *)
Definition bad1 : list wevent := Eval vm_compute in settled 59 (start "00") (issue_two ++ [EDeliver 0 59; EDeliver 0 59; EPublish lg (at_min 59) (at_min 59) (at_min 59)])%list.
Definition bad2 : list wevent := Eval vm_compute in settled 0 (start "00") (bad1 ++ [EMonitor "m1" (Monitor.MQueryLoggers 0); EMonitor "m2" (Monitor.MQueryLoggers 0)])%list.
Definition bad3 : list wevent := Eval vm_compute in settled 0 (start "00") (bad2 ++ [EMonitor "m1" (Monitor.MFire 0 0 "t"); EMonitor "m2" (Monitor.MFire 0 0 "t")])%list.

(* ---------------------------------------------------------------- *)
(** * Checking a run step by step *)

(** [f] holds of every event, given the state before it and the events before it (the last one first). *)
Fixpoint along (f : world -> list wevent -> wevent -> bool) (W : world) (past : list wevent) (l : list wevent) : bool :=
  match l with
  | [] => true
  | ev :: r => f W past ev && along f (wstep toy_z toy_x toy_sys W ev) (ev :: past) r
  end.
Lemma along_at f l1 ev l2 : forall W past, along f W past (l1 ++ ev :: l2) = true -> f (sys_run W l1) (rev l1 ++ past)%list ev = true.
Proof.
  induction l1 as [|a l1 IH]; intros W past H; cbn [along app] in H; apply andb_true_iff in H as [H1 H2]; [exact H1|].
  specialize (IH _ _ H2). cbn [rev]. rewrite <- app_assoc. exact IH.
Qed.

Definition timely_b (next : nat -> nat) (e : string) (W : world) (past : list wevent) (ev : wevent) : bool :=
  match ev with
  | EDeliver i m =>
      match w_mail W !! i with
      | Some (Query _ _ url) =>
          negb (String.eqb url e) ||
          (bool_decide (is_Some (w_loggers W !! e)) && existsb (λ n, Nat.eqb m (next n)) (publications e past))
      | _ => true
      end
  | ELose _ => false
  | _ => true
  end.

Lemma publications_in e l n : n ∈ publications e l -> exists t t1 t2, EPublish e t t1 t2 ∈ l /\ Logger.n_minute t = n.
Proof.
  unfold publications. rewrite elem_of_list_omap. intros (ev & H & E). destruct ev; try done. destruct (String.eqb _ _) eqn:X; [|done].
  apply String.eqb_eq in X as ->. injection E as <-. eauto.
Qed.

Lemma timely_sound next e W l : along (timely_b next e) W [] l = true -> timely toy_z toy_x toy_sys W next e l.
Proof.
  intros H. split.
  - intros l1 i m l2 mon f -> E. apply along_at in H. cbn [timely_b] in H. rewrite E in H.
    rewrite String.eqb_refl in H. cbn [negb orb] in H. apply andb_true_iff in H as [H1 H2].
    split; [by apply bool_decide_eq_true in H1|]. apply existsb_exists in H2 as (n & Hn & Q). apply Nat.eqb_eq in Q as ->.
    apply elem_of_list_In in Hn. apply publications_in in Hn as (t & t1 & t2 & Hn & <-). exists t, t1, t2. split; [|done].
    rewrite app_nil_r in Hn. apply elem_of_list_In. apply in_rev. by apply elem_of_list_In.
  - intros l1 i l2 y -> E. apply along_at in H. discriminate H.
Qed.

(** Nobody outside sends anything. *)
Definition no_outsider (ev : wevent) : bool := match ev with EInject _ | EPost _ => false | _ => true end.
Lemma no_outsider_silent e l : forallb no_outsider l = true -> outsiders_silent e l.
Proof.
  rewrite forallb_forall. intros H. split.
  - intros y Hy%elem_of_list_In%H. discriminate.
  - intros u path g Hy%elem_of_list_In%H. discriminate.
Qed.

(** What is shown. *)
Definition answers_in (W : world) : list gobj :=
  omap (λ y, match y with Response _ _ _ (Some g) => Some g | _ => None end) (w_mail W).
Fixpoint shows (W : world) (l : list wevent) : list gobj :=
  (answers_in W ++ match l with [] => [] | ev :: r => shows (wstep toy_z toy_x toy_sys W ev) r end)%list.
Lemma shows_sound l g : forallb no_outsider l = true -> forall W, shown toy_z toy_x toy_sys W l g -> g ∈ shows W l.
Proof.
  intros Hn W [(l1 & l2 & mon & f & url & -> & H)|H].
  - clear Hn. revert W H. induction l1 as [|a l1 IH]; intros W H; cbn [app shows].
    + assert (g ∈ answers_in W) as X. { unfold answers_in. apply elem_of_list_omap. exists (Response mon f url (Some g)). split; [exact H|done]. }
      destruct l2; cbn [shows]; apply elem_of_app; by left.
    + apply elem_of_app. right. by apply IH.
  - exfalso. rewrite forallb_forall in Hn. destruct H as [[u H]|[[mon H]|(u & path & H)]]; apply elem_of_list_In in H; apply Hn in H; discriminate.
Qed.

(** Statements with signer, and one signature for an identifier. *)
Definition consistent (L : list gobj) : bool :=
  forallb (λ g, forallb (λ h, negb (bool_decide (get_id g = get_id h)) || (String.eqb (g_s0 g) (g_s0 h) && String.eqb (g_s1 g) (g_s1 h))) L
                && bool_decide (g_type g ∉ [ACC_INIT; ACC_FRAG; ACC_FULL; CON_INIT]) && negb (String.eqb (g_signer g) "")) L.
Lemma consistent_sound e L (D : gobj -> Prop) : (forall g, D g -> g ∈ L) -> consistent L = true ->
  no_evidence e D /\ (forall g, D g -> g_p0 g = e -> statement g -> g_signer g <> "").
Proof.
  intros HD H. unfold consistent in H. rewrite forallb_forall in H. split; [split|].
  - intros g Hg%HD%elem_of_list_In%H _. apply andb_true_iff in Hg as [[_ Hg]%andb_true_iff _]. apply bool_decide_eq_true in Hg.
    rewrite !elem_of_cons, elem_of_nil in Hg. tauto.
  - intros g h Hg%HD%elem_of_list_In%H Hh%HD%elem_of_list_In _ _ E. apply andb_true_iff in Hg as [[Hg _]%andb_true_iff _].
    rewrite forallb_forall in Hg. apply Hg in Hh. rewrite bool_decide_eq_true_2 in Hh by done. cbn [negb orb] in Hh.
    apply andb_true_iff in Hh as [H1 H2]. split; by apply String.eqb_eq.
  - intros g Hg%HD%elem_of_list_In%H _ _. apply andb_true_iff in Hg as [_ Hg]. intros E. rewrite E in Hg. discriminate.
Qed.

Definition answered_b (e : string) (W : world) (_ : list wevent) (ev : wevent) : bool :=
  match ev with
  | EDeliver i _ =>
      match w_mail W !! i with
      | Some (Response mon f url r) =>
          negb (String.eqb url e) ||
          match sy_monitors toy_sys !! mon, w_mons W !! mon, r with
          | Some (c, _), Some s, Some g => 
              bool_decide (verify (Monitor.mc_crypto c) g = Accept) && match f with Sth => true | _ => false end
          | _, _, _ => false
          end
      | _ => true
      end
  | _ => true
  end.
Lemma answered_sound e W l : along (answered_b e) W [] l = true -> well_answered toy_z toy_x toy_sys W e l.
Proof.
  intros H l1 i m l2 mon f r c u s -> E Ec Es. apply along_at in H. cbn [answered_b] in H. rewrite E, String.eqb_refl in H. cbn [negb orb] in H.
  rewrite Ec, Es in H. destruct r as [g|]; [|done]. exists g. split; [done|]. apply andb_true_iff in H as [H1 H2]. apply bool_decide_eq_true in H1.
  split; [done|]. intros ->. discriminate.
Qed.

(* ---------------------------------------------------------------- *)
(** * The two runs *)
Definition black_in (e : string) (W : world) : bool := forallb (λ uy : string * gpool, bool_decide (e ∈ t_black (p_st uy.2))) (map_to_list (on_nodes (w_net W))).
Lemma black_in_sound e W : black_in e W = true -> forall u y, on_nodes (w_net W) !! u = Some y -> e ∈ t_black (p_st y).
Proof.
  intros H u y Hy. unfold black_in in H. rewrite forallb_forall in H. specialize (H (u, y)). cbn [snd] in H.
  rewrite bool_decide_eq_true in H. apply H. apply elem_of_list_In. by apply elem_of_map_to_list.
Qed.
(** The client has a tree head. *)
Definition client_has (cl key : string) (W : world) : bool :=
  match w_clients W !! cl with Some s => bool_decide (is_Some (Client.cl_sth s !! key)) | None => false end.
Lemma client_has_sound cl key W : client_has cl key W = true -> exists s, w_clients W !! cl = Some s /\ is_Some (Client.cl_sth s !! key).
Proof. unfold client_has. destruct (w_clients W !! cl) as [s|]; [|done]. intros H%bool_decide_eq_true. eauto. Qed.

Lemma good_run : forallb no_outsider good4 && along (timely_b Datatypes.S lg) (start "12") [] good4 && along (answered_b lg) (start "12") [] good4 &&
  consistent (shows (start "12") good4) && bool_decide (NoDup (publications lg good4)) &&
  client_has "c1" "localhost:9100@12" (sys_run (start "12") good4) = true.
Proof. vm_compute. reflexivity. Qed.
Lemma bad_run : forallb no_outsider bad3 && along (timely_b (λ n, Nat.modulo (Datatypes.S n) 60) lg) (start "00") [] bad3 &&
  bool_decide (NoDup (publications lg bad3)) && black_in lg (sys_run (start "00") bad3) = true.
Proof. vm_compute. reflexivity. Qed.

Lemma toy_identity : logger_identity toy_sys lg (Logger.mklconf (P:=toy) lg [ca] "k1").
Proof.
  split_and!; try done.
  - intros u c' H. cbn [toy_sys sy_loggers] in H. apply lookup_singleton_Some in H as [<- <-]. done.
  - intros u c' cc H. cbn [toy_sys sy_cas] in H. apply lookup_singleton_Some in H as [<- H]. injection H as <- _. discriminate.
  - intros mon c' u H. cbn [toy_sys sy_monitors] in H.
    assert (exists k1 k2, c' = sys_mon k1 k2) as (k1 & k2 & ->).
    { apply lookup_insert_Some in H as [[_ H]|[_ H]]; [injection H as <- _; eauto|]. apply lookup_singleton_Some in H as [_ H]. injection H as <- _; eauto. }
    split; [cbn [sys_mon Monitor.mc_cas]; rewrite elem_of_list_singleton; discriminate|]. split; [done|].
    exists "k1". split; [reflexivity|]. intros m. cbn. apply String.eqb_refl.
Qed.

Lemma bad_facts : outsiders_silent lg bad3 /\ NoDup (publications lg bad3) /\ in_time_60 toy_z toy_x toy_sys (start "00") lg bad3 /\
  (forall u y, on_nodes (w_net (sys_run (start "00") bad3)) !! u = Some y -> lg ∈ t_black (p_st y)).
Proof.
  pose proof bad_run as H. apply andb_true_iff in H as [[[H1 H2]%andb_true_iff H3]%andb_true_iff H4].
  exact (conj (no_outsider_silent _ _ H1) (conj (bool_decide_eq_true_1 _ H3) (conj (timely_sound _ _ _ _ H2) (black_in_sound _ _ H4)))).
Qed.

Lemma bad_convicted : exists (S : sysconf toy) lt ct e c l,
  let W0 := world_init toy_x S "00" "s" "t" lt ct in
  logger_identity S e c /\ (lt e).1 = 0%Z /\ outsiders_silent e l /\ NoDup (publications e l) /\ in_time_60 toy_z toy_x S W0 e l /\
  size (sy_gossipers S) = 2 /\
  forall u y, on_nodes (w_net (wrun toy_z toy_x S W0 l)) !! u = Some y -> e ∈ t_black (p_st y).
Proof.
  exists toy_sys, (λ _, (0, 0)%Z), (λ _, (0%Z, 0%Z, toy_draw 1 "a", toy_draw 2 "b")), lg, (Logger.mklconf (P:=toy) lg [ca] "k1"), bad3.
  destruct bad_facts as (H1 & H2 & H3 & H4).
  exact (conj toy_identity (conj eq_refl (conj H1 (conj H2 (conj H3 (conj eq_refl H4)))))).
Qed.

Lemma good_facts : outsiders_silent lg good4 /\ NoDup (publications lg good4) /\ in_time toy_z toy_x toy_sys (start "12") lg good4 /\
  well_answered toy_z toy_x toy_sys (start "12") lg good4 /\
  (no_evidence lg (shown toy_z toy_x toy_sys (start "12") good4) /\
   forall g, shown toy_z toy_x toy_sys (start "12") good4 g -> g_p0 g = lg -> statement g -> g_signer g <> "") /\
  exists s, w_clients (sys_run (start "12") good4) !! "c1" = Some s /\ is_Some (Client.cl_sth s !! "localhost:9100@12").
Proof.
  pose proof good_run as H. apply andb_true_iff in H as [[[[[H1 H2]%andb_true_iff H3]%andb_true_iff H4]%andb_true_iff H5]%andb_true_iff H6].
  exact (conj (no_outsider_silent _ _ H1) (conj (bool_decide_eq_true_1 _ H5) (conj (timely_sound _ _ _ _ H2) (conj (answered_sound _ _ _ H3)
    (conj (consistent_sound lg _ _ (λ g, shows_sound _ g H1 _) H4) (client_has_sound _ _ _ H6)))))).
Qed.
