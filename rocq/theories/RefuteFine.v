(** Runs of the fine-grained gossiper, for the examples. *)
From Verif Require Import Bytes Hex Base64 Json Types Crypto Verify Prog Gossiper SpecVerify SpecGossiper Toy ProgFacts GossiperInv GossiperSeq GossiperWalks GossiperMore RefuteGossiper Locks LockUse Fine FineGossiper FineFacts FineGossiperFacts.
Open Scope string_scope.

(* ---------------------------------------------------------------- *)
(** * What carries over *)

Section carry.
Context {P : prims} (cfg : gconf P).

Lemma nw_all Dl c c' : psteps (start_task cfg) (no_wipe cfg Dl) clock_step c c' -> gpsteps cfg c c'.
Proof.
  induction 1 as [c|c1 c2 c3 H IH Hs]; [constructor|]. econstructor; [exact IH|].
  destruct Hs; [by constructor|constructor|constructor|constructor|constructor| |by constructor].
  constructor. by destruct H0; constructor.
Qed.

Lemma fine_reachable Dl a b d c : fine_steps cfg Dl (fine_init a b d) c -> reachable cfg (f_st c).
Proof. intros H. apply fine_sim in H as (_&c'&Hc&E&_). exists a, b, d, c'. split; [by eapply nw_all|done]. Qed.

Lemma fine_black Dl a b d c c' : fine_steps cfg Dl (fine_init a b d) c -> fine_steps cfg Dl c c' -> t_black (f_st c) ⊆ t_black (f_st c').
Proof.
  assert (Hreq : forall m, m_request cfg Dl m -> exists p, no_wipe cfg Dl p /\ refines m p).
  { intros m [n g Hg|n|n]; eexists; (split; [by econstructor|]); [apply ref_object|apply ref_notif|apply ref_request]. }
  assert (Henv : forall s s' k, clock_step s s' -> same k s s') by (intros; by apply same_clock).
  intros H1 H2.
  destruct (simulation same same_equiv _ _ (start_task cfg) (no_wipe cfg Dl) _ (ref_task cfg) Hreq Henv _ _ _ (related_new same _) H1) as (x1&G1&R1).
  destruct (simulation same same_equiv _ _ (start_task cfg) (no_wipe cfg Dl) _ (ref_task cfg) Hreq Henv _ _ _ R1 H2) as (x2&G2&R2).
  destruct R1 as (->&_). destruct R2 as (->&_). by eapply no_wipe_black.
Qed.

Lemma fine_nocrash a b d c : cc_thr_scheme (gc_crypto cfg) = "bls" ->
  fine_steps cfg (λ g, verify (gc_crypto cfg) g <> Panics) (fine_init a b d) c -> f_crashes c = [].
Proof. intros Hb H. apply fine_sim in H as (_&c'&Hc&_&_&<-&_). by eapply nocrash_pool. Qed.
End carry.

(* ---------------------------------------------------------------- *)
(** * A run *)

Section fsched.
Context {St Task : Type} (start : Task -> mprog St Task unit) (req : mprog St Task unit -> Prop) (env : St -> St -> Prop).

(** Goroutine [i] does a step, if it can. *)
Definition fgo (c : fpool St Task) (i : nat) : fpool St Task :=
  if f_dead c then c else
  match nth_error (f_threads c) i with
  | None => c
  | Some p =>
      let l1 := firstn i (f_threads c) in let l2 := skipn (S i) (f_threads c) in
      match p with
      | MAct f k => mkfpool (f (f_st c)).1 (f_locks c) (l1 ++ k (f (f_st c)).2 :: l2) (f_tasks c) (f_crashes c) false
      | MSync o k =>
          match exec (f_locks c) o with
          | Goes L more => mkfpool (f_st c) L (l1 ++ foldr MSync k more :: l2) (f_tasks c) (f_crashes c) false
          | _ => c
          end
      | MRet _ => mkfpool (f_st c) (f_locks c) (l1 ++ l2) (f_tasks c) (f_crashes c) false
      | _ => c
      end
  end.
Definition fgos (c : fpool St Task) (l : list nat) : fpool St Task := fold_left fgo l c.

Lemma fsteps_app c1 c2 c3 : fsteps start req env c1 c2 -> fsteps start req env c2 c3 -> fsteps start req env c1 c3.
Proof. intros H1 H2. induction H2; [done|]. by econstructor; [apply IHfsteps|]. Qed.
Lemma fgo_sound c i : fsteps start req env c (fgo c i).
Proof.
  destruct c as [s L l ts cr []]; unfold fgo; cbn [f_dead f_threads f_st f_locks f_tasks f_crashes]; [constructor|].
  destruct (nth_error l i) as [p|] eqn:E; [|constructor]. apply nth_split in E.
  destruct p as [a|w|X f k|t k|o k]; try by constructor.
  - eapply fsteps_trans; [constructor|]. rewrite E at 1. constructor.
  - eapply fsteps_trans; [constructor|]. rewrite E at 1. constructor.
  - destruct (exec L o) as [| |L' more] eqn:Ex; [constructor|constructor|]. eapply fsteps_trans; [constructor|]. rewrite E at 1. by constructor.
Qed.
Lemma fgos_sound l c : fsteps start req env c (fgos c l).
Proof. revert c. induction l as [|i l IH]; intros c; [constructor|]. eapply fsteps_app; [apply fgo_sound|apply IH]. Qed.
End fsched.

(** Two copies of a fragment arrive; both pass the duplicate test, the first is about to write, the second waits for the lock. *)
Definition two_copies : fpool gst gtask :=
  mkfpool (init_gst "07" "s" "t") ∅ [m_object_handler cfg1 0 junk_frag; m_object_handler cfg1 0 junk_frag] [] [] false.
Definition fine_mid : fpool gst gtask := fgos two_copies (repeat 0 9 ++ repeat 1 9 ++ repeat 0 5 ++ [1])%list.
Definition fine_late : fpool gst gtask := fgos fine_mid (repeat 0 2 ++ repeat 1 6)%list.

Lemma two_copies_ok : fine_steps cfg1 (λ g, g = junk_frag) (fine_init "07" "s" "t") two_copies.
Proof.
  eapply fsteps_trans; [eapply fsteps_trans; [constructor|]|].
  - apply (fstep_req _ _ _ _ _ _ _ _ (m_object_handler cfg1 0 junk_frag)). by constructor.
  - apply (fstep_req _ _ _ _ _ [_] _ _ (m_object_handler cfg1 0 junk_frag)). by constructor.
Qed.
Lemma fine_mid_ok : fine_steps cfg1 (λ g, g = junk_frag) (fine_init "07" "s" "t") fine_mid /\ fine_steps cfg1 (λ g, g = junk_frag) fine_mid fine_late.
Proof. split; [eapply fsteps_app; [apply two_copies_ok|apply fgos_sound]|apply fgos_sound]. Qed.

Definition waits_for (m : gmprog unit) (L : gmap string rw) (k : string) : bool :=
  match m with MSync (Lock k') _ => String.eqb k k' && rw_writer (lock_at L k) | _ => false end.
Lemma fine_mid_test : (match f_threads fine_mid with [_; m] => waits_for m (f_locks fine_mid) "STH_FRAG_LOCK" | _ => false end) = true /\
  length (get_object_list (f_st fine_mid) (get_id junk_frag) Sth) = 0 /\ get_object_list (f_st fine_late) (get_id junk_frag) Sth = [junk_frag; junk_frag].
Proof. split_and!; vm_compute; reflexivity. Qed.
Lemma junk_ok : verify (gc_crypto cfg1) junk_frag <> Panics.
Proof. by vm_compute. Qed.

(* ---------------------------------------------------------------- *)
(** * With the task at the end of a period *)

(** A goroutine has read the list of fragments; the task replaces maps and locks; another fragment is stored; the first goroutine writes the list it has read, extended. *)
Definition three : fpool gst gtask :=
  mkfpool (init_gst "07" "s" "t") ∅ [m_object_handler cfg1 0 junk_frag; m_periodic; m_object_handler cfg1 0 frag_g2] [] [] false.
Definition fine_lost : fpool gst gtask := fgos three (repeat 0 14 ++ repeat 1 7 ++ repeat 2 16 ++ [0])%list.
Definition both (g : gobj) : Prop := g = junk_frag \/ g = frag_g2.

Lemma three_ok : fine_steps_all cfg1 both (fine_init "07" "s" "t") three.
Proof.
  eapply fsteps_trans; [eapply fsteps_trans; [eapply fsteps_trans; [constructor|]|]|].
  - apply (fstep_req _ _ _ _ _ _ _ _ (m_object_handler cfg1 0 junk_frag)). left. constructor. by left.
  - apply (fstep_req _ _ _ _ _ [_] _ _ m_periodic). by right.
  - apply (fstep_req _ _ _ _ _ [_; _] _ _ (m_object_handler cfg1 0 frag_g2)). left. constructor. by right.
Qed.
Lemma fine_lost_test : get_object_list (f_st fine_lost) (get_id junk_frag) Sth = [junk_frag] /\ i_type (get_id junk_frag) = frag_type Sth /\
  befores (get_id junk_frag) (since_wipe (t_trace (f_st fine_lost))) = [0; 0] /\ cc_threshold (gc_crypto cfg1) = 2.
Proof. split_and!; vm_compute; reflexivity. Qed.
Lemma not_reachable {P : prims} (cfg : gconf P) s i f : i_type i = frag_type f -> length (get_object_list s i f) = 1 ->
  length (befores i (since_wipe (t_trace s))) = 2 -> cc_threshold (gc_crypto cfg) = 2 -> ~ reachable cfg s.
Proof. intros Hi Hl Hb Ht Hr. pose proof (bucket_size cfg s f i Hr Hi) as H. by rewrite Hl, Hb, Ht in H. Qed.
Lemma period_end_fine : exists (P : prims) (cfg : gconf P) (Dl : gobj -> Prop) a b d c, fine_steps_all cfg Dl (fine_init a b d) c /\ f_dead c = false /\ ~ reachable cfg (f_st c).
Proof.
  exists toy, cfg1, both, "07", "s", "t", fine_lost. destruct fine_lost_test as (H1&H2&H3&H4). split; [|split].
  - eapply fsteps_app; [apply three_ok|apply fgos_sound].
  - vm_compute. reflexivity.
  - eapply not_reachable; [exact H2| | |exact H4]; [by rewrite H1|by rewrite H3].
Qed.
