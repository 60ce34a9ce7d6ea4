(** Counterexamples for the gossiper. *)
From Verif Require Import Bytes Hex Json Types Crypto Verify Prog Gossiper SpecVerify SpecGossiper Toy ProgFacts GossiperSeq.
Open Scope string_scope.

Global Instance notification_eq_dec : EqDecision notification.
Proof. solve_decision. Defined.
Global Instance gmsg_eq_dec : EqDecision gmsg.
Proof. solve_decision. Defined.
Global Instance gevt_eq_dec : EqDecision gevt.
Proof. solve_decision. Defined.

Ltac decide_it := apply (bool_decide_unpack _); vm_compute; reflexivity.

(* ---------------------------------------------------------------- *)
(** * Playing schedules *)

Inductive greq := RObj (n : Z) (g : gobj) | RPer.
Definition rq {P : prims} (cfg : gconf P) (r : greq) : gprog unit :=
  match r with RObj n g => object_handler cfg n g | RPer => periodic end.
Lemma rq_ok {P : prims} (cfg : gconf P) r : grequest cfg (rq cfg r).
Proof. destruct r; constructor. Qed.

Notation gchoice := (choice (Req:=greq)).
Definition play {P : prims} (cfg : gconf P) (c : gpool) (l : list gchoice) : option gpool :=
  sched (start_task cfg) (rq cfg) c l.

Lemma play_ex {P : prims} (cfg : gconf P) c l (test : gpool -> bool) :
  (match play cfg c l with Some y => test y | None => false end) = true -> exists y, play cfg c l = Some y /\ gpsteps cfg c y /\ test y = true.
Proof.
  destruct (play cfg c l) as [y|] eqn:E; [|done]. intros H. exists y. split_and!; auto.
  eapply sched_sound; [apply rq_ok|exact E].
Qed.

Definition gos (i n : nat) : list gchoice := repeat (Go i) n.

Definition cfg1 : gconf toy := toy_conf "g1" 1.
Definition log1 : string := "localhost:9100".
Definition start1 : gpool := init_pool "07" "s" "t".
Definition y1 : gsys := init_gsys "07" "s" "t".

(** Two conflicting statements of logger 9100, and the proof. *)
Definition sth_a : gobj := toy_init STH_INIT "07" "k1" log1 "a" "y".
Definition sth_b : gobj := toy_init STH_INIT "07" "k1" log1 "b" "y".
Definition con_ab : gobj := generate_con ("07", "t") sth_a sth_b.
Definition with_signer (x : string) (g : gobj) : gobj :=
  let '(mkobj a p t _ ss s0 s1 ti sc p0 p1 p2) := g in mkobj a p t x ss s0 s1 ti sc p0 p1 p2.

(* ---------------------------------------------------------------- *)
(** * C08: the wipe loses a concurrent blacklisting *)

Definition race08 : list gchoice := (Spawn RPer :: gos 0 4 ++ Spawn (RObj 0 con_ab) :: gos 1 10)%list.

Lemma blacklist_race : exists (P : prims) (cfg : gconf P) a b d c c' e,
  gpsteps cfg (init_pool a b d) c /\ gpsteps cfg c c' /\ e ∈ t_black (p_st c) /\ e ∉ t_black (p_st c').
Proof.
  exists toy, cfg1, "07", "s", "t".
  destruct (play_ex cfg1 start1 race08 (λ y, bool_decide (log1 ∈ t_black (p_st y)) &&
     match play cfg1 y (gos 0 1) with Some y' => bool_decide (log1 ∉ t_black (p_st y')) | None => false end)) as (y & _ & H1 & H2).
  { vm_compute. reflexivity. }
  apply andb_true_iff in H2 as [H2 H3]. apply bool_decide_eq_true in H2.
  destruct (play_ex cfg1 y (gos 0 1) (λ y', bool_decide (log1 ∉ t_black (p_st y'))) H3) as (y' & _ & H4 & H5).
  apply bool_decide_eq_true in H5. exists y, y', log1. done.
Qed.

(* ---------------------------------------------------------------- *)
(** * C09: HTTP handling of objects about a blacklisted entity *)

Lemma steps_reach {P : prims} (cfg : gconf P) a b c l : reachable cfg (s_st (steps cfg (init_gsys a b c) l)).
Proof. exists a, b, c, (pool_of (steps cfg (init_gsys a b c) l)). split; [apply steps_reachable|done]. Qed.

Definition ca1 : string := "localhost:9000".
Definition rev_a : gobj := toy_init REV_INIT "07" "k3" ca1 "a" "y".
Definition rev_b : gobj := toy_init REV_INIT "07" "k3" ca1 "b" "y".
Definition con_rev : gobj := generate_con ("07", "t") rev_a rev_b.
Definition rev_frag : gobj := toy_frag REV_FRAG "07" "g2" 10 ca1 "a" "y".

Lemma blacklisted_refuted : exists (P : prims) (cfg : gconf P) s n g n' g',
  reachable cfg s /\ g_p0 g ∈ t_black s /\ g_p0 g' ∈ t_black s /\
  t_payload (run (object_handler cfg n g) s).1.1 <> t_payload s /\
  sent (t_trace (run (object_handler cfg n' g') s).1.1) <> sent (t_trace s).
Proof.
  exists toy, cfg1, (s_st (steps cfg1 y1 [Recv 0 con_rev])), 1000%Z, rev_a, 0%Z, rev_frag.
  split; [apply steps_reach|]. split; [apply (bool_decide_unpack _); vm_compute; reflexivity|].
  split; [apply (bool_decide_unpack _); vm_compute; reflexivity|]. split.
  - intros H. apply (f_equal size) in H. vm_compute in H. done.
  - intros H. apply (f_equal length) in H. vm_compute in H. done.
Qed.

(* ---------------------------------------------------------------- *)
(** * C12: junk fragments are stored, junk aggregates reach the monitor *)

Definition junk_frag : gobj := toy_frag STH_FRAG "07" "g3" 7 log1 "a" "y".
Definition junk_full : gobj := mkobj CTNG_APPLICATION "07" STH_FULL "" ["evil"] "junk" "" "t" "bls" log1 "a" "y".

Lemma junk_refuted : exists (P : prims) (cfg : gconf P) s f i g u full,
  reachable cfg s /\ g ∈ get_object_list s i f /\ verify (gc_crypto cfg) g <> Accept /\
  ToMonitor u full ∈ t_trace s /\ is_full full /\ verify (gc_crypto cfg) full <> Accept.
Proof.
  exists toy, cfg1, (s_st (steps cfg1 y1 [Recv 0 junk_frag; Recv 0 junk_full])), Sth, (get_id junk_frag), junk_frag, "m1", junk_full.
  split; [apply steps_reach|]. split; [vm_compute; by left|]. split; [by vm_compute|].
  split; [vm_compute; by repeat first [left; done | right]|]. split; [by left|by vm_compute].
Qed.

(* ---------------------------------------------------------------- *)
(** * C16: two handlers race past the conflict test *)

Definition race16 : list gchoice :=
  (Spawn (RObj 0 sth_a) :: Spawn (RObj 0 sth_b) :: gos 0 5 ++ gos 1 5 ++ gos 0 6 ++ gos 0 6)%list.

Definition is_nil {A} (l : list A) : bool := match l with [] => true | _ => false end.

Lemma is_nil_true {A} (l : list A) : is_nil l = true -> l = [].
Proof. by destruct l. Qed.

Lemma conflict_race : exists (P : prims) (cfg : gconf P) a b d c g h,
  gpsteps cfg (init_pool a b d) c /\ p_threads c = [] /\
  EvStored g ∈ t_trace (p_st c) /\ EvStored h ∈ t_trace (p_st c) /\ statement g /\
  get_id g = get_id h /\ g_signer g = g_signer h /\ g_s0 g <> g_s0 h /\
  t_con_init (p_st c) = ∅ /\ t_black (p_st c) = ∅.
Proof.
  exists toy, cfg1, "07", "s", "t".
  destruct (play_ex cfg1 start1 race16 (λ y, is_nil (p_threads y) && bool_decide (EvStored sth_a ∈ t_trace (p_st y)) &&
     bool_decide (EvStored sth_b ∈ t_trace (p_st y)) && bool_decide (t_con_init (p_st y) = ∅) && bool_decide (t_black (p_st y) = ∅)))
    as (y & _ & H1 & H2).
  { vm_compute. reflexivity. }
  rewrite !andb_true_iff, !bool_decide_eq_true in H2. destruct H2 as ((((A1 & A2) & A3) & A4) & A5). apply is_nil_true in A1.
  exists y, sth_a, sth_b. split_and!; auto; try done. by left.
Qed.

(* ---------------------------------------------------------------- *)
(** * C17: an honest logger is convicted by a copy with empty Signer *)

Definition sth_e : gobj := with_signer "" sth_a.
Definition honest_copies (g : gobj) : Prop := g = sth_a \/ g = sth_e.
Definition rq17 (b : bool) : gprog unit := object_handler cfg1 0 (if b then sth_a else sth_e).
Definition race17 : list (choice (Req:=bool)) :=
  (Spawn false :: Spawn true :: repeat (Go 0) 5 ++ repeat (Go 1) 6 ++ repeat (Go 0) 8)%list.

Definition test17 (y : gpool) : bool := bool_decide (log1 ∈ t_black (p_st y)).
Lemma race17_ok : (match sched (start_task cfg1) rq17 start1 race17 with Some y => test17 y | None => false end) = true.
Proof. vm_compute. reflexivity. Qed.

Lemma sched_ex {P : prims} (cfg : gconf P) {R : Type} (rr : R -> gprog unit) (req : gprog unit -> Prop) c l (test : gpool -> bool) :
  (forall r, req (rr r)) -> (match sched (start_task cfg) rr c l with Some y => test y | None => false end) = true ->
  exists y, psteps (start_task cfg) req clock_step c y /\ test y = true.
Proof.
  intros Hr. destruct (sched _ rr c l) as [y|] eqn:E; [|done]. intros H. exists y. split; [|done].
  by eapply sched_sound.
Qed.

Lemma honest_copies_ok g : honest_copies g -> verify (gc_crypto cfg1) g = Accept.
Proof. intros [-> | ->]; vm_compute; reflexivity. Qed.

Lemma honest_copies_ne : no_evidence log1 honest_copies.
Proof.
  split.
  - intros g [-> | ->] _; cbn; split_and!; discriminate.
  - intros g h [-> | ->] [-> | ->] _ _ _; split; reflexivity.
Qed.

Lemma rq17_ok b : delivering cfg1 honest_copies (rq17 b).
Proof. left. destruct b; [apply (nw_obj cfg1 honest_copies 0 sth_a)|apply (nw_obj cfg1 honest_copies 0 sth_e)]; [by left|by right]. Qed.

Lemma honest_convicted : exists (P : prims) (cfg : gconf P) e Dl a b d c,
  no_evidence e Dl /\ (forall g, Dl g -> verify (gc_crypto cfg) g = Accept) /\
  psteps (start_task cfg) (delivering cfg Dl) clock_step (init_pool a b d) c /\ e ∈ t_black (p_st c).
Proof.
  exists toy, cfg1, log1, honest_copies, "07", "s", "t".
  destruct (sched_ex cfg1 rq17 (delivering cfg1 honest_copies) start1 race17 test17 rq17_ok race17_ok) as (y & H1 & H2).
  apply bool_decide_eq_true in H2. exists y.
  exact (conj honest_copies_ne (conj honest_copies_ok (conj H1 H2))).
Qed.

(* ---------------------------------------------------------------- *)
(** * C21: two statements signed for one identifier *)

Definition sth_b2 : gobj := with_signer "other" sth_b.

Definition signed_pairs (tr : list gevt) : list (gobj * gobj) :=
  omap (λ e, match e with EvSigned g fr => Some (g, fr) | _ => None end) tr.

Lemma signed_pairs_in tr g fr : (g, fr) ∈ signed_pairs tr -> EvSigned g fr ∈ tr.
Proof.
  unfold signed_pairs. rewrite elem_of_list_omap. intros (e & He & Hx). destruct e; try done. by injection Hx as -> ->.
Qed.

Lemma two_signed tr :
  match signed_pairs tr with
  | [(g1, f1); (g2, f2)] => bool_decide (get_id g1 = get_id g2) && bool_decide (covered g1 <> covered g2)
  | _ => false end = true ->
  exists g1 f1 g2 f2, EvSigned g1 f1 ∈ tr /\ EvSigned g2 f2 ∈ tr /\ get_id g1 = get_id g2 /\ covered g1 <> covered g2.
Proof.
  destruct (signed_pairs tr) as [|[g1 f1] [|[g2 f2] [|]]] eqn:E; try done.
  intros [H1 H2]%andb_true_iff. apply bool_decide_eq_true in H1, H2. exists g1, f1, g2, f2.
  split_and!; auto; apply signed_pairs_in; rewrite E; [by left|by right; left].
Qed.

Definition hist21 : list gevent := [Recv 0 sth_a; Recv 0 sth_b2; Fire 0; Fire 0].

Lemma sign_twice : exists (P : prims) (cfg : gconf P) a b c l,
  Forall (λ e, e <> Period) l /\
  let tr := t_trace (s_st (steps cfg (init_gsys a b c) l)) in
  exists g1 f1 g2 f2, EvSigned g1 f1 ∈ tr /\ EvSigned g2 f2 ∈ tr /\ get_id g1 = get_id g2 /\ covered g1 <> covered g2.
Proof.
  exists toy, cfg1, "07", "s", "t", hist21. split; [by repeat constructor|]. apply two_signed. vm_compute. reflexivity.
Qed.

(* ---------------------------------------------------------------- *)
(** * C23: panics *)

Lemma panic_unknown : exists (P : prims) (cfg : gconf P) a b c l, s_crashes (steps cfg (init_gsys a b c) l) <> [].
Proof.
  exists toy, cfg1, "07", "s", "t", [Recv 0 (toy_init STH_INIT "07" "k1" "nobody" "x" "y")]. by vm_compute.
Qed.

(** Honest objects only: a fragment of g2, a statement, then the own
    signing timer races with the period change. *)
Definition frag_g2 : gobj := toy_frag STH_FRAG "07" "g2" 10 log1 "a" "y".
Inductive req23 := SendFrag | SendSth | Wipe.
Definition rq23 (r : req23) : gprog unit :=
  match r with SendFrag => object_handler cfg1 0 frag_g2 | SendSth => object_handler cfg1 0 sth_a | Wipe => periodic end.
Definition race23 : list (choice (Req:=req23)) :=
  (Spawn SendFrag :: repeat (Go 0) 6 ++ Spawn SendSth :: repeat (Go 0) 11 ++ Start 0 :: repeat (Go 0) 6
   ++ Spawn Wipe :: repeat (Go 1) 2 ++ repeat (Go 0) 2)%list.
Definition deliv23 (g : gobj) : Prop := g = frag_g2 \/ g = sth_a.

Lemma deliv23_ok g : deliv23 g -> verify (gc_crypto cfg1) g = Accept.
Proof. intros [-> | ->]; vm_compute; reflexivity. Qed.

Lemma rq23_ok r : delivering cfg1 deliv23 (rq23 r).
Proof.
  destruct r; [left|left|by right]; [apply (nw_obj cfg1 deliv23 0 frag_g2)|apply (nw_obj cfg1 deliv23 0 sth_a)]; [by left|by right].
Qed.

Definition test23 (y : gpool) : bool := negb (is_nil (p_crashes y)).
Lemma race23_ok : (match sched (start_task cfg1) rq23 start1 race23 with Some y => test23 y | None => false end) = true.
Proof. vm_compute. reflexivity. Qed.

Lemma panic_race : exists (P : prims) (cfg : gconf P) (Dl : gobj -> Prop) a b d c,
  (forall g, Dl g -> verify (gc_crypto cfg) g = Accept) /\
  psteps (start_task cfg) (delivering cfg Dl) clock_step (init_pool a b d) c /\ p_crashes c <> [].
Proof.
  exists toy, cfg1, deliv23, "07", "s", "t".
  destruct (sched_ex cfg1 rq23 (delivering cfg1 deliv23) start1 race23 test23 rq23_ok race23_ok) as (y & H1 & H2).
  exists y. assert (p_crashes y <> []) as H3 by (unfold test23 in H2; by destruct (p_crashes y)).
  exact (conj deliv23_ok (conj H1 H3)).
Qed.

(* ---------------------------------------------------------------- *)
(** * C24: the aggregate takes the period of the clock *)

Definition frag_g3 : gobj := toy_frag STH_FRAG "07" "g3" 100 log1 "a" "y".
Definition fulls (tr : list gevt) : list gobj := omap (λ e, match e with EvFull g => Some g | _ => None end) tr.

Lemma fulls_ex tr (test : gobj -> bool) :
  (match fulls tr with g :: _ => test g | [] => false end) = true -> exists g, EvFull g ∈ tr /\ test g = true.
Proof.
  destruct (fulls tr) as [|g l] eqn:E; [done|]. intros H. exists g. split; [|done].
  assert (g ∈ fulls tr) as Hin by (rewrite E; by left). unfold fulls in Hin. apply elem_of_list_omap in Hin as (e & He & Hx).
  destruct e; try done. by injection Hx as ->.
Qed.

(** Two honest fragments of period 07; the second arrives after the clock
    moved to 08 but before the wipe. *)
Definition hist24 : list gevent := [Recv 0 frag_g2; Tick "08" "s" "t"; Recv 0 frag_g3].
Definition test24 (g : gobj) : bool := bool_decide (g_period g <> "07") && bool_decide (verify (gc_crypto cfg1) g = Accept).

Lemma full_period_refuted : exists (P : prims) (cfg : gconf P) a b c l full,
  (forall n g, Recv n g ∈ l -> verify (gc_crypto cfg) g = Accept /\ g_period g = "07") /\
  EvFull full ∈ t_trace (s_st (steps cfg (init_gsys a b c) l)) /\ g_period full <> "07".
Proof.
  destruct (fulls_ex (t_trace (s_st (steps cfg1 (init_gsys "07" "s" "t") hist24))) test24) as (g & H1 & H2).
  { vm_compute. reflexivity. }
  apply andb_true_iff in H2 as [H2 _]. apply bool_decide_eq_true in H2.
  exists toy, cfg1, "07", "s", "t", hist24, g. split; [|exact (conj H1 H2)].
  intros n h Hin. unfold hist24 in Hin. rewrite !elem_of_cons, elem_of_nil in Hin.
  destruct Hin as [[= -> ->]|[Hin|[[= -> ->]|[]]]]; [split; [vm_compute|]; reflexivity|done|split; [vm_compute|]; reflexivity].
Qed.

(* ---------------------------------------------------------------- *)
(** * C25: an uncached REV fragment is filed under the empty entity *)

Lemma local_refuted : exists (P : prims) (cfg : gconf P) s n g i,
  reachable cfg s /\ i_entity i <> g_p0 g /\
  get_frags (run (object_handler cfg n g) s).1.1 Rev !! i <> get_frags s Rev !! i.
Proof.
  exists toy, cfg1, (s_st (steps cfg1 y1 [])), 0%Z, rev_frag, (mkgid "07" REV_FRAG "").
  split; [apply steps_reach|]. split; [done|]. intros H. vm_compute in H. discriminate.
Qed.

(* ---------------------------------------------------------------- *)
(** * C55: two statements with different Signer fields displace each other *)

Definition hist55 : list gevent := [Recv 0 sth_a; Recv 0 sth_b2].

Lemma relay_again_refuted : exists (P : prims) (cfg : gconf P) a b c l g,
  let s := s_st (steps cfg (init_gsys a b c) l) in
  Forall (λ e, e <> Period) l /\ statement g /\ EvStored g ∈ t_trace s /\
  sent (t_trace (run (handle cfg g) s).1.1) <> sent (t_trace s).
Proof.
  exists toy, cfg1, "07", "s", "t", hist55, sth_a. cbn zeta. split; [by repeat constructor|]. split; [by left|]. split.
  - apply (bool_decide_unpack _). vm_compute. reflexivity.
  - intros H. apply (f_equal length) in H. vm_compute in H. discriminate.
Qed.

(* ---------------------------------------------------------------- *)
(** * C56: one junk fragment spoils the aggregate *)

Definition hist56 : list gevent := [Recv 0 (toy_frag STH_FRAG "07" "g1" 7 log1 "a" "y"); Recv 0 frag_g2; Recv 0 frag_g3].

Lemma poisoned_refuted : exists (P : prims) (cfg : gconf P) a b c l i p1 p2 g h,
  let s := s_st (steps cfg (init_gsys a b c) l) in
  cc_threshold (gc_crypto cfg) = 2 /\ Forall (λ e, e <> Period) l /\ i_type i = STH_FRAG /\
  honest_fragment (gc_crypto cfg) i p1 p2 g /\ honest_fragment (gc_crypto cfg) i p1 p2 h /\ g_signer g <> g_signer h /\
  (exists n, Recv n g ∈ l) /\ (exists n, Recv n h ∈ l) /\ t_sth_full s = ∅ /\ t_black s = ∅.
Proof.
  exists toy, cfg1, "07", "s", "t", hist56, (get_id frag_g2), "a", "y", frag_g2, frag_g3. cbn zeta.
  split; [done|]. split; [by repeat constructor|]. split; [done|].
  split. { split_and!; try done. eexists (mkfrag (P:=toy) _ "g2"), 10%Z. split; [reflexivity|]. split; [reflexivity|]. split; vm_compute; reflexivity. }
  split. { split_and!; try done. eexists (mkfrag (P:=toy) _ "g3"), 100%Z. split; [reflexivity|]. split; [reflexivity|]. split; vm_compute; reflexivity. }
  split; [done|]. split; [exists 0%Z; right; by left|]. split; [exists 0%Z; right; right; by left|].
  split; apply (bool_decide_unpack _); vm_compute; reflexivity.
Qed.
