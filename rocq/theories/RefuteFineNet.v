(** Example runs of networks and systems with gossipers at the level of single accesses. *)
From Verif Require Import Bytes Hex Json Types Crypto Verify Bitset Cert CertPool CTngExt Revocation Prog Gossiper Network Overlap System SpecCodec SpecVerify SpecGossiper SpecNetwork SpecOverlap SpecSystem Toy ToyFacts ProgFacts GossiperSeq RefuteGossiper NetworkNode RefuteNetwork RefuteOverlap RefuteLogger RefuteCA RefuteSystem Locks LockUse Fine FineGossiper FineNet SpecFineNet FineFacts.
From Verif Require Logger CA Monitor Client.
Open Scope string_scope.

Section go.
Context {P : prims} (c : gconf P).
(** Goroutine [i] does a step, if it can; timer [i] fires. *)
Definition frun (y : fgpool) (i : nat) : option fgpool :=
  if f_dead y then None else
  match nth_error (f_threads y) i with
  | None => None
  | Some p =>
      let l1 := firstn i (f_threads y) in let l2 := skipn (Datatypes.S i) (f_threads y) in
      match p with
      | MAct f k => let r := f (f_st y) in Some (mkfpool r.1 (f_locks y) (l1 ++ k r.2 :: l2) (f_tasks y) (f_crashes y) false)
      | MSync o k =>
          match exec (f_locks y) o with
          | Goes L more => Some (mkfpool (f_st y) L (l1 ++ foldr MSync k more :: l2) (f_tasks y) (f_crashes y) false)
          | _ => None
          end
      | MFork t k => Some (mkfpool (f_st y) (f_locks y) (l1 ++ k :: l2) (f_tasks y ++ [t]) (f_crashes y) false)
      | MRet _ => Some (mkfpool (f_st y) (f_locks y) (l1 ++ l2) (f_tasks y) (f_crashes y) false)
      | MCrash w => Some (mkfpool (f_st y) (f_locks y) (l1 ++ l2) (f_tasks y) (w :: f_crashes y) false)
      end
  end.
Definition ffire (y : fgpool) (i : nat) : option fgpool :=
  if f_dead y then None else
  match nth_error (f_tasks y) i with
  | None => None
  | Some t => Some (mkfpool (f_st y) (f_locks y) (f_threads y ++ [m_start_task c t]) (firstn i (f_tasks y) ++ skipn (Datatypes.S i) (f_tasks y)) (f_crashes y) false)
  end.
Lemma frun_sound y i y' : frun y i = Some y' -> internal c y y'.
Proof.
  destruct y as [s L l ts cr []]; unfold frun, internal; cbn [f_dead f_threads f_st f_locks f_tasks f_crashes]; [done|].
  destruct (nth_error l i) as [p|] eqn:E; [|done]. apply nth_split in E.
  destruct p as [a|w|X f k|t k|o k].
  - intros [= <-]. rewrite E at 1. constructor.
  - intros [= <-]. rewrite E at 1. constructor.
  - intros [= <-]. rewrite E at 1. constructor.
  - intros [= <-]. rewrite E at 1. constructor.
  - destruct (exec L o) as [| |L' more] eqn:Ex; [done|done|]. intros [= <-]. rewrite E at 1. by constructor.
Qed.
Lemma ffire_sound y i y' : ffire y i = Some y' -> internal c y y'.
Proof.
  destruct y as [s L l ts cr []]; unfold ffire, internal; cbn [f_dead f_threads f_st f_locks f_tasks f_crashes]; [done|].
  destruct (nth_error ts i) as [p|] eqn:E; [|done]. apply nth_split in E. intros [= <-]. rewrite E at 1. constructor.
Qed.
End go.

Section drive.
Context {P : prims} (cfgs : gmap string (gconf P)) (turn : nat -> nat).
(** The scheduler: among the goroutines of the first gossiper at work, [turn n] is next; if none is at work, the first post arrives; if none is on its
    way, a timer fires. *)
Definition who (N : fnet) (f : fgpool -> bool) : option string :=
  match List.filter (λ uy : string * fgpool, f uy.2) (map_to_list (fn_nodes N)) with (u, _) :: _ => Some u | [] => None end.
Definition pick (n : nat) (N : fnet) : option (option oevent * fnet) :=
  match fn_flight N with
  | q :: r => Some (Some (ODeliver 0), let N' := mkfnet (fn_nodes N) r in match arrival q with Some e => fact cfgs N' (po_to q) (λ c, fadd (m_request_prog c e)) | None => N' end)
  | [] =>
      match who N (λ y, negb (is_nil (f_threads y))) with
      | Some u =>
          match cfgs !! u, fn_nodes N !! u with
          | Some c, Some y => y' ← frun y (turn n); Some (None, fput N u y y')
          | _, _ => None
          end
      | None =>
          match who N (λ y, negb (is_nil (f_tasks y))) with
          | Some u =>
              match cfgs !! u, fn_nodes N !! u with
              | Some c, Some y => y' ← ffire c y 0; Some (None, fput N u y y')
              | _, _ => None
              end
          | None => None
          end
      end
  end.
Fixpoint drive (n : nat) (l : list oevent) (N : fnet) : list oevent * fnet :=
  match n with
  | 0 => (l, N)
  | Datatypes.S n => match pick n N with Some (o, N') => drive n (l ++ option_list o)%list N' | None => drive n l N end
  end.
Lemma pick_sound n N o N' : pick n N = Some (o, N') -> fnet_step cfgs N o N'.
Proof.
  unfold pick. destruct (fn_flight N) as [|q r] eqn:Ef.
  - destruct (who N _) as [u|].
    + destruct (cfgs !! u) as [c|] eqn:Hc; [|done]. destruct (fn_nodes N !! u) as [y|] eqn:Hy; [|done]. destruct (frun y _) as [y'|] eqn:E; [|done].
      intros [= <- <-]. eapply fnet_run; [done|done|]. by eapply frun_sound.
    + destruct (who N _) as [u|]; [|done]. destruct (cfgs !! u) as [c|] eqn:Hc; [|done]. destruct (fn_nodes N !! u) as [y|] eqn:Hy; [|done].
      destruct (ffire c y _) as [y'|] eqn:E; [|done]. intros [= <- <-]. eapply fnet_run; [done|done|]. by eapply ffire_sound.
  - intros [= <- <-]. pose proof (fnet_deliver cfgs N 0 q) as H. rewrite Ef in H. exact (H eq_refl).
Qed.
Lemma drive_sound n l N N0 : fnet_run_to cfgs N0 l N -> fnet_run_to cfgs N0 (drive n l N).1 (drive n l N).2.
Proof.
  revert l N. induction n as [|n IH]; intros l N H; [done|]. cbn [drive]. destruct (pick n N) as [[o N']|] eqn:E; [|by apply IH].
  apply IH. econstructor; [done|]. by eapply pick_sound.
Qed.
Definition is_fquiet (N : fnet) : bool :=
  is_nil (fn_flight N) && forallb (λ uy : string * fgpool, is_nil (f_threads uy.2) && is_nil (f_tasks uy.2)) (map_to_list (fn_nodes N)).
End drive.

Definition f_hand : fnet := fact plain3 (fnet_init plain3 "07" "s" "t") "g1" (λ c, fadd (m_request_prog c (Recv (Z.of_nat (len (gobj_marshal sth_a))) sth_a))).
Definition f_end : list oevent * fnet := drive plain3 (λ _, 0) 600 [OHand "g1" sth_a] f_hand.
Definition single_f (N : fnet) (g : gobj) : bool :=
  forallb (λ uy : string * fgpool, bool_decide (NoDup (map g_signer (fragments_held "07" (f_st uy.2) g)))) (map_to_list (fn_nodes N)).

Lemma fquiet_sound N : is_fquiet N = true -> fquiescent N.
Proof.
  unfold is_fquiet. rewrite andb_true_iff, forallb_forall. intros [H1 H2]. split; [by destruct (fn_flight N)|].
  intros u y Hy. specialize (H2 (u, y)). cbn in H2. destruct (f_threads y), (f_tasks y); [done| | |]; exfalso;
  (assert (false = true); [|done]; apply H2; apply elem_of_list_In; by apply elem_of_map_to_list).
Qed.
Lemma single_f_sound N g : single_f N g = true -> forall w y, fn_nodes N !! w = Some y -> NoDup (fragments_held "07" (f_st y) g).
Proof.
  unfold single_f. rewrite forallb_forall. intros H w x Hx. specialize (H (w, x)). cbn [fst snd] in H.
  rewrite bool_decide_eq_true in H. rewrite NoDup_ListNoDup. apply NoDup_map_inv with (f := g_signer), NoDup_ListNoDup, H.
  apply elem_of_list_In. by apply elem_of_map_to_list.
Qed.
Lemma pick_label {P : prims} (cfgs : gmap string (gconf P)) turn n N o N' : pick cfgs turn n N = Some (o, N') -> o = None \/ o = Some (ODeliver 0).
Proof.
  unfold pick. destruct (fn_flight N) as [|q r]; [|intros [= <- _]; by right].
  destruct (who N _) as [u|].
  - destruct (cfgs !! u) as [c|]; [|done]. destruct (fn_nodes N !! u) as [y|]; [|done]. destruct (frun y _) as [y'|]; [|done]. intros [= <- _]. by left.
  - destruct (who N _) as [u|]; [|done]. destruct (cfgs !! u) as [c|]; [|done]. destruct (fn_nodes N !! u) as [y|]; [|done]. destruct (ffire c y _) as [y'|]; [|done]. intros [= <- _]. by left.
Qed.
Lemma drive_labels {P : prims} (cfgs : gmap string (gconf P)) turn n l N : exists l', (drive cfgs turn n l N).1 = (l ++ l')%list /\ Forall (λ e, e = ODeliver 0) l'.
Proof.
  revert l N. induction n as [|n IH]; intros l N; [exists []; by rewrite app_nil_r|]. cbn [drive]. destruct (pick cfgs turn n N) as [[o N']|] eqn:E; [|apply IH].
  destruct (IH (l ++ option_list o)%list N') as (l'&E1&E2). exists (option_list o ++ l')%list. rewrite E1, app_assoc. split; [done|]. apply Forall_app. split; [|done].
  destruct (pick_label _ _ _ _ _ _ E) as [->| ->]; by repeat constructor.
Qed.
Lemma f_end_run : is_fquiet f_end.2 && single_f f_end.2 sth_a && Nat.eqb (deliveries f_end.1) 18 = true.
Proof. vm_compute. reflexivity. Qed.
Lemma handed {P : prims} (cfgs : gmap string (gconf P)) N u g :
  fnet_run_to cfgs N [OHand u g] (fact cfgs N u (λ c, fadd (m_request_prog c (Recv (Z.of_nat (len (gobj_marshal g))) g)))).
Proof. apply (fnet_more cfgs N [] N (Some (OHand u g))); [constructor|apply fnet_hand]. Qed.
Lemma labels_allowed p Gs u g l' : g ∈ Gs -> Forall (λ e, e = ODeliver 0) l' -> Forall (oallowed p Gs) (OHand u g :: l').
Proof. intros Hg Fl. constructor; [exact Hg|]. eapply Forall_impl; [exact Fl|]. by intros e ->. Qed.
Lemma f_end_facts : fnet_run_to plain3 (fnet_init plain3 "07" "s" "t") f_end.1 f_end.2 /\ Forall (oallowed "07" [sth_a; rev_a]) f_end.1 /\ fquiescent f_end.2 /\
  OHand "g1" sth_a ∈ f_end.1 /\ (forall w y, fn_nodes f_end.2 !! w = Some y -> NoDup (fragments_held "07" (f_st y) sth_a)) /\ deliveries f_end.1 = 18.
Proof.
  pose proof f_end_run as H. apply andb_true_iff in H as [[H1 H2]%andb_true_iff H3].
  assert (fnet_run_to plain3 (fnet_init plain3 "07" "s" "t") f_end.1 f_end.2) as H0 by exact (drive_sound plain3 (λ _, 0) 600 _ _ _ (handed plain3 _ "g1" sth_a)).
  assert (exists l', f_end.1 = OHand "g1" sth_a :: l' /\ Forall (λ e, e = ODeliver 0) l') as (l'&El&Fl) by exact (drive_labels plain3 (λ _, 0) 600 [OHand "g1" sth_a] f_hand).
  generalize dependent f_end. intros [l N] H1 H2 H3 H0 El. cbn [fst snd] in *. subst l.
  split; [exact H0|]. split; [exact (labels_allowed _ _ _ _ _ (elem_of_list_here _ _) Fl)|]. split; [exact (fquiet_sound _ H1)|]. split; [apply elem_of_list_here|].
  split; [exact (single_f_sound _ _ H2)|exact (proj1 (Nat.eqb_eq _ _) H3)].
Qed.

(* ---------------------------------------------------------------- *)
(** * The whole system *)
Section sdrive.
Context {P : prims} (z : gzip) (x : CA.x509lib) (S : sysconf P).
Notation cfgs := (sy_gossipers S).
Definition report_f (N N' : fnet) (u : string) : list mail :=
  match fn_nodes N !! u, fn_nodes N' !! u with
  | Some y, Some y' => reports (drop (length (t_trace (f_st y))) (t_trace (f_st y')))
  | _, _ => []
  end.
(** The mail is delivered first, then the gossipers go on as above. *)
Definition spick (n m : nat) (F : fworld) : option (option wevent * fworld) :=
  let '(mkfw N W) := F in
  match w_mail W with
  | ToGossip u g :: r => Some (Some (EDeliver 0 m), mkfw (fact cfgs N u (λ c, fadd (m_request_prog c (Recv (Z.of_nat (len (gobj_marshal g))) g)))) (set_mail W r))
  | _ :: _ => Some (Some (EDeliver 0 m), mkfw N (wstep z x S W (EDeliver 0 m)))
  | [] =>
      match fn_flight N with
      | q :: r => Some (Some (EGossip (ODeliver 0)), mkfw (let N' := mkfnet (fn_nodes N) r in match arrival q with Some e => fact cfgs N' (po_to q) (λ c, fadd (m_request_prog c e)) | None => N' end) W)
      | [] =>
          match who N (λ y, negb (is_nil (f_threads y))) with
          | Some u =>
              match cfgs !! u, fn_nodes N !! u with
              | Some c, Some y => y' ← frun y (Nat.modulo n (length (f_threads y)));
                                  Some (None, mkfw (fput N u y y') (send W (reports (drop (length (t_trace (f_st y))) (t_trace (f_st y'))))))
              | _, _ => None
              end
          | None =>
              match who N (λ y, negb (is_nil (f_tasks y))) with
              | Some u =>
                  match cfgs !! u, fn_nodes N !! u with
                  | Some c, Some y => y' ← ffire c y 0; Some (None, mkfw (fput N u y y') (send W (reports (drop (length (t_trace (f_st y))) (t_trace (f_st y'))))))
                  | _, _ => None
                  end
              | None => None
              end
          end
      end
  end.
Lemma spick_sound n m F o F' : spick n m F = Some (o, F') -> fw_step z x S F o F'.
Proof.
  destruct F as [N W]. unfold spick. destruct (w_mail W) as [|y r] eqn:Em.
  - destruct (fn_flight N) as [|q r] eqn:Ef.
    + destruct (who N _) as [u|].
      * destruct (cfgs !! u) as [c|] eqn:Hc; [|done]. destruct (fn_nodes N !! u) as [y|] eqn:Hy; [|done]. destruct (frun y _) as [y'|] eqn:E; [|done].
        intros [= <- <-]. eapply fw_run; [done|done|]. by eapply frun_sound.
      * destruct (who N _) as [u|]; [|done]. destruct (cfgs !! u) as [c|] eqn:Hc; [|done]. destruct (fn_nodes N !! u) as [y|] eqn:Hy; [|done].
        destruct (ffire c y _) as [y'|] eqn:E; [|done]. intros [= <- <-]. eapply fw_run; [done|done|]. by eapply ffire_sound.
    + intros [= <- <-]. apply fw_gossip; [done|]. pose proof (fnet_deliver cfgs N 0 q) as H. rewrite Ef in H. exact (H eq_refl).
  - assert (forall u g, y = ToGossip u g -> fw_step z x S (mkfw N W) (Some (EDeliver 0 m))
      (mkfw (fact cfgs N u (λ c, fadd (m_request_prog c (Recv (Z.of_nat (len (gobj_marshal g))) g)))) (set_mail W r))) as Hg.
    { intros u g ->. pose proof (λ N', fw_hand z x S N W 0 m u g N') as H. rewrite Em in H. apply (H _ eq_refl). apply fnet_hand. }
    assert (match y with ToGossip _ _ => False | _ => True end -> fw_step z x S (mkfw N W) (Some (EDeliver 0 m)) (mkfw N (wstep z x S W (EDeliver 0 m)))) as Ho.
    { intros Hy. apply fw_other. cbn. rewrite Em. cbn. by destruct y. }
    destruct y; intros [= <- <-]; try (by apply Ho). by apply Hg.
Qed.
Fixpoint sdrive (n m : nat) (h : list (wevent * world)) (F : fworld) : list (wevent * world) * fworld :=
  match n with
  | 0 => (h, F)
  | Datatypes.S n => match spick n m F with Some (o, F') => sdrive n m (h ++ match o with Some e => [(e, fw_rest F)] | None => [] end)%list F' | None => sdrive n m h F end
  end.
Lemma sdrive_sound n m h F F0 : fw_run_to z x S F0 h F -> fw_run_to z x S F0 (sdrive n m h F).1 (sdrive n m h F).2.
Proof.
  revert h F. induction n as [|n IH]; intros h F H; [done|]. cbn [sdrive]. destruct (spick n m F) as [[o F']|] eqn:E; [|by apply IH].
  apply IH. econstructor; [done|]. by eapply spick_sound.
Qed.
(** Events elsewhere. *)
Definition is_elsewhere (e : wevent) : bool := match e with EGossip _ | EPost _ | EPeriod _ | EDeliver _ _ => false | _ => true end.
Fixpoint others_do (l : list wevent) (h : list (wevent * world)) (F : fworld) : list (wevent * world) * fworld :=
  match l with
  | [] => (h, F)
  | e :: l => if is_elsewhere e then others_do l (h ++ [(e, fw_rest F)])%list (mkfw (fw_net F) (wstep z x S (fw_rest F) e)) else (h, F)
  end.
Lemma others_sound l h F F0 : fw_run_to z x S F0 h F -> fw_run_to z x S F0 (others_do l h F).1 (others_do l h F).2.
Proof.
  revert h F. induction l as [|e l IH]; intros h F H; [done|]. cbn [others_do]. destruct (is_elsewhere e) eqn:Ee; [|done].
  apply IH. apply (fw_more z x S F0 h F (Some e)); [done|]. destruct F as [N W]. apply fw_other. by destruct e.
Qed.
(** Phases: some events, then everything settles in minute [m]. *)
Fixpoint phases (l : list (list wevent * nat)) (h : list (wevent * world)) (F : fworld) : list (wevent * world) * fworld :=
  match l with
  | [] => (h, F)
  | (es, m) :: l => let '(h1, F1) := others_do es h F in let '(h2, F2) := sdrive 900 m h1 F1 in phases l h2 F2
  end.
Lemma phases_sound l h F F0 : fw_run_to z x S F0 h F -> fw_run_to z x S F0 (phases l h F).1 (phases l h F).2.
Proof.
  revert h F. induction l as [|[es m] l IH]; intros h F H; [done|]. cbn [phases].
  pose proof (others_sound es h F F0 H) as H1. destruct (others_do es h F) as [h1 F1]. cbn [fst snd] in H1.
  pose proof (sdrive_sound 900 m h1 F1 F0 H1) as H2. destruct (sdrive 900 m h1 F1) as [h2 F2]. by apply IH.
Qed.

(** A test for [fw_timely] and [outsiders_silent]. *)
Definition timely_at (e : string) (before : list wevent) (ev : wevent) (R : world) : bool :=
  match ev with
  | EDeliver i m =>
      match w_mail R !! i with
      | Some (Query _ _ url) =>
          negb (String.eqb url e) ||
          match w_loggers R !! e with Some _ => existsb (λ b, match b with EPublish u t _ _ => String.eqb u e && Nat.eqb m (Datatypes.S (Logger.n_minute t)) | _ => false end) before | None => false end
      | _ => true
      end
  | ELose _ | EInject _ | EPost _ => false
  | _ => true
  end.
Fixpoint timely_all (e : string) (before : list wevent) (h : list (wevent * world)) : bool :=
  match h with
  | [] => true
  | (ev, R) :: h => timely_at e before ev R && timely_all e (before ++ [ev])%list h
  end.
Lemma timely_all_split e h before h1 ev R h2 : timely_all e before h = true -> h = (h1 ++ (ev, R) :: h2)%list -> timely_at e (before ++ h1.*1)%list ev R = true.
Proof.
  revert before h. induction h1 as [|[ev' R'] h1 IH]; intros before h H ->; cbn in H; apply andb_true_iff in H as [H1 H2].
  - by rewrite app_nil_r.
  - specialize (IH _ _ H2 eq_refl). rewrite <- app_assoc in IH. exact IH.
Qed.
Lemma timely_all_in e h ev : timely_all e [] h = true -> ev ∈ h.*1 -> match ev with ELose _ | EInject _ | EPost _ => False | _ => True end.
Proof.
  intros H Hin. apply elem_of_list_fmap in Hin as ([ev' R]&->&Hin). apply elem_of_list_split in Hin as (h1&h2&E).
  pose proof (timely_all_split _ _ _ _ _ _ _ H E) as Ht. cbn [fst]. by destruct ev'.
Qed.
Lemma timely_all_sound e h : timely_all e [] h = true -> outsiders_silent e h.*1 /\ fw_timely Datatypes.S e h.
Proof.
  intros H. split; [split; intros; exfalso; exact (timely_all_in _ _ _ H H0)|]. split.
  - intros h1 i m R h2 mon f E Hm. pose proof (timely_all_split _ _ _ _ _ _ _ H E) as Ht. cbn in Ht. rewrite Hm, String.eqb_refl in Ht. cbn in Ht.
    destruct (w_loggers R !! e) as [s|]; [|done]. split; [by eexists|]. apply existsb_exists in Ht as (b&Hb&Hc). destruct b as [| | | | | |l t t1 t2| | | | | |]; try done.
    apply andb_true_iff in Hc as [->%String.eqb_eq ->%Nat.eqb_eq]. exists t, t1, t2. split; [by apply elem_of_list_In|done].
  - intros h1 i R h2 y E. by pose proof (timely_all_split _ _ _ _ _ _ _ H E) as Ht.
Qed.
End sdrive.

(** Minute 11: a certificate is issued, the logger publishes; minute 12: the monitors query, publish an update, and the client loads it. *)
Definition f_start : fworld := fw_init toy_x toy_sys "12" "s" "t" (λ _, (0, 0)%Z) (λ _, (0%Z, 0%Z, toy_draw 1 "a", toy_draw 2 "b")).
Definition script : list (list wevent * nat) :=
  [(issue_two, 11); ([EPublish lg (at_min 11) (at_min 11) (at_min 11)], 11);
   ([EMonitor "m1" (Monitor.MQueryLoggers 12); EMonitor "m2" (Monitor.MQueryLoggers 12)], 12);
   ([EMonitor "m2" (Monitor.MPublish 12); ELoad "c1" "m2" "Period_12" true], 12)].
Definition f_story : list (wevent * world) * fworld := phases toy_z toy_x toy_sys script [] f_start.
Lemma f_story_run : is_fquiet (fw_net f_story.2) && timely_all lg [] f_story.1 && bool_decide (NoDup (publications lg f_story.1.*1)) && client_has "c1" "localhost:9100@12" (fw_rest f_story.2) &&
  Nat.eqb (length f_story.1) 27 = true.
Proof. vm_compute. reflexivity. Qed.
Lemma f_story_facts : fw_run_to toy_z toy_x toy_sys f_start f_story.1 f_story.2 /\ outsiders_silent lg f_story.1.*1 /\ NoDup (publications lg f_story.1.*1) /\ fw_timely Datatypes.S lg f_story.1 /\
  exists s, w_clients (fw_rest f_story.2) !! "c1" = Some s /\ is_Some (Client.cl_sth s !! "localhost:9100@12").
Proof.
  pose proof f_story_run as H. apply andb_true_iff in H as [[[[H1 H2]%andb_true_iff H3]%andb_true_iff H4]%andb_true_iff _].
  assert (fw_run_to toy_z toy_x toy_sys f_start f_story.1 f_story.2) as H0 by exact (phases_sound toy_z toy_x toy_sys script [] f_start f_start (fw_here _ _ _ _)).
  generalize dependent f_story. intros [h F] H1 H2 H3 H4 H0. cbn [fst snd] in *. destruct (timely_all_sound _ _ H2) as [A B].
  exact (conj H0 (conj A (conj (bool_decide_eq_true_1 _ H3) (conj B (client_has_sound _ _ _ H4))))).
Qed.
