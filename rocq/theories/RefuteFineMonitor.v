(** Histories of a monitor whose goroutines interleave. *)
From Verif Require Import Bytes Types Crypto Verify VerifyFacts Gossiper Bitset Revocation Clock Monitor FineMonitor SpecFineMonitor Toy RefuteVerify RefuteCA RefuteMonitor SpecCA BitsetFacts RevocationFacts.
Open Scope string_scope.

Definition no_key : gid := mkgid "" "" "".
Definition go (n : nat) (k : gid) : fevent := FStep n 7 "t" k.
Definition run_fine (l : list fevent) : option (fmon * list fout) := frun toy_z toy_mc fm_init l.
Definition fst_of (l : list fevent) : fmon := match run_fine l with Some (y, _) => y | None => fm_init end.
Definition out_of (l : list fevent) : list fout := match run_fine l with Some (_, o) => o | None => [] end.
Definition lives (l : list fevent) : bool := match run_fine l with Some _ => true | None => false end.
Lemma lives_run l : lives l = true -> frun toy_z toy_mc fm_init l = Some (fst_of l, out_of l).
Proof. unfold lives, fst_of, out_of, run_fine. destruct (frun _ _ _ _) as [[y o]|]; done. Qed.

(** A proof against logger 9100, with the period for which the monitor looks, is stored. *)
Definition con0 : gobj :=
  generate_con ("0", "t") (toy_init STH_INIT "7" "k1" "localhost:9100" "a" "") (toy_init STH_INIT "7" "k1" "localhost:9100" "b" "").
Definition convict : list fevent := [FGossip con0; go 0 no_key; go 0 no_key; go 0 no_key].

(** The head of logger 9101 is stored. *)
Definition other_sth : gobj := toy_full STH_FULL "07" "localhost:9101" "a" "".
Definition store_other : list fevent := [FGossip other_sth; go 0 no_key; go 0 no_key].

(** Logger 9101 does not answer, and is accused. *)
Definition silence : list fevent := [FReply Sth "localhost:9101" None; FFire 0; go 0 no_key; go 0 no_key; go 0 no_key; go 0 no_key; go 0 no_key; go 0 no_key].

(** The task, with the head of 9101 in store. *)
Definition whole_task : list fevent :=
  [FTask; go 0 (get_id other_sth); go 0 no_key; go 0 no_key; go 0 no_key; go 0 no_key;
   go 0 (get_id other_sth); go 0 no_key; go 0 no_key; go 0 (con_key "localhost:9100"); go 0 no_key; go 0 no_key; go 0 no_key;
   go 0 (get_id other_sth); go 0 no_key; go 0 no_key; go 0 no_key; go 0 no_key; go 0 no_key; go 0 no_key].

Definition published (o : list fout) : list (string * list gobj) :=
  flat_map (λ x, match x with FUpdate d u => [(d, (u_sths u ++ u_revs u)%list)] | _ => [] end) o.

Definition day : list fevent := (convict ++ store_other ++ silence ++ whole_task)%list.
Definition early : list fevent := (convict ++ store_other)%list.


(** The head of the convicted logger arrives when the task has looked for it. *)
Definition late : list fevent :=
  (convict ++ [FTask; go 0 no_key; go 0 no_key; FGossip toy_sth_full; go 1 no_key; go 1 no_key; go 0 no_key;
   go 0 (get_id toy_sth_full); go 0 no_key; go 0 no_key; go 0 (con_key "localhost:9100"); go 0 no_key; go 0 no_key; go 0 no_key;
   go 0 (get_id toy_sth_full); go 0 no_key; go 0 no_key; go 0 no_key; go 0 no_key; go 0 no_key; go 0 no_key])%list.

(** The statement arrives when the timer has looked for it. *)
Definition toy_sth07 : gobj := toy_init STH_INIT "07" "k1" "localhost:9100" "a" "".
Definition unjust : list fevent :=
  [FReply Sth "localhost:9100" None; FFire 0; go 0 no_key; FGossip toy_sth07; go 1 no_key; go 1 no_key; go 0 no_key; go 0 no_key; go 0 no_key; go 0 no_key; go 0 no_key].

(** ** What these histories show *)
Definition sent_to (x : string) (l : list fevent) : nat := accusations x (out_of l).

Lemma day_lives : frun toy_z toy_mc fm_init day = Some (fst_of day, out_of day).
Proof. apply lives_run. vm_compute. reflexivity. Qed.
Lemma day_shows : sent_to "localhost:9101" day = 1 /\ published (out_of day) = [("Period_7", [other_sth])] /\ m_sth (fm_st (fst_of day)) !! get_id other_sth = Some other_sth.
Proof. vm_compute. done. Qed.

Lemma early_lives : frun toy_z toy_mc fm_init early = Some (fst_of early, out_of early).
Proof. apply lives_run. vm_compute. reflexivity. Qed.
Lemma early_shows : is_Some (m_con (fm_st (fst_of early)) !! mkgid "0" CON_INIT "localhost:9100") /\ fm_go (fst_of early) = [].
Proof. split; [eexists|]; vm_compute; reflexivity. Qed.

Lemma convict_lives : frun toy_z toy_mc fm_init convict = Some (fst_of convict, out_of convict).
Proof. apply lives_run. vm_compute. reflexivity. Qed.
Lemma convict_shows : is_Some (m_con (fm_st (fst_of convict)) !! mkgid "0" CON_INIT "localhost:9100") /\ fm_go (fst_of convict) = [].
Proof. split; [eexists|]; vm_compute; reflexivity. Qed.

(** A head of a convicted logger that arrives during the task is published. *)
Definition after_convict : list fevent := drop 4 late.
Lemma late_published : exists y o u, frun toy_z toy_mc (fst_of convict) after_convict = Some (y, o) /\ o = [FUpdate "Period_7" u] /\ u_sths u = [toy_sth_full] /\
  g_p0 toy_sth_full = "localhost:9100" /\ head after_convict = Some FTask.
Proof.
  destruct (frun toy_z toy_mc (fst_of convict) after_convict) as [[y o]|] eqn:E; [|vm_compute in E; discriminate].
  assert (O : o = match frun toy_z toy_mc (fst_of convict) after_convict with Some (_, o) => o | None => [] end) by (by rewrite E).
  exists y, o, (match o with [FUpdate _ u] => u | _ => empty_update toy_mc end). split; [done|]. clear E. subst o. vm_compute. done.
Qed.

Lemma unjust_lives : frun toy_z toy_mc fm_init unjust = Some (fst_of unjust, out_of unjust).
Proof. apply lives_run. vm_compute. reflexivity. Qed.

(** The statement of the minute is in store when the accusation is sent. *)
Lemma unjust_shows : exists l1 l2 y1 o1, unjust = (l1 ++ l2)%list /\ frun toy_z toy_mc fm_init l1 = Some (y1, o1) /\
  m_temp (fm_st y1) !! mkgid "07" STH_INIT "localhost:9100" = Some toy_sth07 /\ accusations "localhost:9100" o1 = 0 /\
  accusations "localhost:9100" (out_of unjust) = 1 /\ Forall (λ e, match e with FStep _ m _ _ => m = 7 | _ => True end) unjust.
Proof.
  exists (take 6 unjust), (drop 6 unjust), (fst_of (take 6 unjust)), (out_of (take 6 unjust)). split; [done|]. split; [apply lives_run; vm_compute; reflexivity|].
  split; [vm_compute; reflexivity|]. split; [vm_compute; reflexivity|]. split; [vm_compute; reflexivity|]. repeat constructor.
Qed.

(** ** Two timers of one CA *)
Section vectors.
Context {P : prims} (z : gzip) (c : mconf (P := P)).
Notation s0 n := (FStep n 7 "t" no_key).

Definition first_vector (g1 g2 : gobj) : list fevent :=
  [FGossip g1; s0 0; s0 0; s0 0; FGossip g2; s0 0; s0 0; s0 0; FFire 0; FFire 0; s0 0; s0 1; s0 0].

Definition crv_of (g : gobj) : bitset := snd (srh_and_dcrv z g).

Lemma gossip_rev (s : mst) g : obj_kind g = KObj (OFull Rev) -> m_rev s !! get_id g = None ->
  frun z c (mkfm s []) [FGossip g; s0 0; s0 0; s0 0] =
  Some (mkfm (set_timers (tset TRev s (<[get_id g := g]> (m_rev s))) (m_timers s ++ [TCrv (g_p0 g) (crv_of g)])%list) [], []).
Proof.
  intros K N. assert (D : is_duplicate s g = false).
  { unfold is_duplicate, get_object. cbn [i_type get_id]. change (kind_of (g_type g)) with (obj_kind g). rewrite K, N. cbn. apply bool_decide_eq_false. intros <-. done. }
  cbn [frun fstep spawn fm_go fm_st app]. cbn [lookup list_lookup gstep].
  rewrite D, K. unfold valid. rewrite K. cbn [fst snd frun fstep spawn fm_go fm_st app lookup list_lookup gstep insert list_insert]. rewrite K.
  cbn [fst snd frun fstep spawn fm_go fm_st app lookup list_lookup gstep insert list_insert delete list_delete]. unfold crv_of.
  by destruct s.
Qed.

Lemma frun_app y l1 l2 : frun z c y (l1 ++ l2) =
  match frun z c y l1 with None => None | Some (y1, o1) => match frun z c y1 l2 with None => None | Some (y2, o2) => Some (y2, o1 ++ o2)%list end end.
Proof.
  revert y. induction l1 as [|e l1 IH]; intros y; cbn [frun app].
  - by destruct (frun z c y l2) as [[]|].
  - destruct (fstep z c y e) as [[y1 o1]|]; [|done]. rewrite IH. destruct (frun z c y1 l1) as [[y2 o2]|]; [|done].
    destruct (frun z c y2 l2) as [[y3 o3]|]; [|done]. by rewrite app_assoc.
Qed.

Lemma fire_both s ca d1 d2 : m_timers s = [TCrv ca d1; TCrv ca d2] -> m_crv s !! ca = None ->
  frun z c (mkfm s []) [FFire 0; FFire 0; s0 0; s0 1; s0 0] =
  Some (mkfm (set_crv (set_timers s []) (<[ca := d1]> (m_crv s))) [GCrvSet ca d2], []).
Proof.
  intros T N. destruct s as [tm co ac cd ad st rv cr ts fs]. cbn [m_timers m_crv] in *. subst ts.
  cbn. rewrite N. cbn. rewrite N. cbn. done.
Qed.

Lemma vector_replaced g1 g2 : obj_kind g1 = KObj (OFull Rev) -> obj_kind g2 = KObj (OFull Rev) -> g_p0 g1 = g_p0 g2 -> get_id g1 <> get_id g2 ->
  exists y1 o1 y2 o2, frun z c fm_init (first_vector g1 g2) = Some (y1, o1) /\ m_crv (fm_st y1) !! g_p0 g1 = Some (crv_of g1) /\
    frun z c y1 [s0 0] = Some (y2, o2) /\ m_crv (fm_st y2) !! g_p0 g1 = Some (crv_of g2).
Proof.
  intros K1 K2 E N.
  pose (sa := set_timers (tset TRev monitor_init {[get_id g1 := g1]}) [TCrv (g_p0 g1) (crv_of g1)]).
  pose (sb := set_timers (tset TRev sa (<[get_id g2 := g2]> {[get_id g1 := g1]})) [TCrv (g_p0 g1) (crv_of g1); TCrv (g_p0 g1) (crv_of g2)]).
  assert (A : frun z c fm_init [FGossip g1; s0 0; s0 0; s0 0] = Some (mkfm sa [], [])).
  { unfold fm_init. rewrite gossip_rev; [done|done|]. apply lookup_empty. }
  assert (B : frun z c (mkfm sa []) [FGossip g2; s0 0; s0 0; s0 0] = Some (mkfm sb [], [])).
  { rewrite gossip_rev; [|done|]; [|by apply lookup_singleton_ne]. rewrite <- E. done. }
  assert (C : frun z c (mkfm sb []) [FFire 0; FFire 0; s0 0; s0 1; s0 0] =
    Some (mkfm (set_crv (set_timers sb []) {[g_p0 g1 := crv_of g1]}) [GCrvSet (g_p0 g1) (crv_of g2)], [])).
  { by apply fire_both. }
  eexists _, _, _, _. split_and!.
  - change (first_vector g1 g2) with ([FGossip g1; s0 0; s0 0; s0 0] ++ [FGossip g2; s0 0; s0 0; s0 0] ++ [FFire 0; FFire 0; s0 0; s0 1; s0 0])%list.
    rewrite frun_app, A, frun_app, B, C. reflexivity.
  - apply lookup_singleton.
  - reflexivity.
  - cbn. apply lookup_insert.
Qed.
End vectors.

(** A final statement of [ca] with the revocations [d]. *)
Definition saying (z : gzip) (ca period : string) (d : bitset) : gobj :=
  mkobj "" period REV_FULL "" [] "" "" "" "" ca "" (rev_marshal (mkrev period (gz_pack z (bs_marshal d)) "")).
Lemma saying_crv z ca p d : gzip_ok z -> bs_ok d -> crv_of z (saying z ca p d) = d.
Proof. intros Z B. unfold crv_of, srh_and_dcrv, saying. cbn [g_p2]. rewrite rev_roundtrip. cbn [rv_srh rv_delta snd]. rewrite Z. cbn [from_option id]. unfold id. by rewrite bs_roundtrip. Qed.

Lemma any_replaced {P : prims} z (c : mconf (P := P)) ca d1 d2 : gzip_ok z -> bs_ok d1 -> bs_ok d2 ->
  exists l e y1 o1 y2 o2, frun z c fm_init l = Some (y1, o1) /\ m_crv (fm_st y1) !! ca = Some d1 /\
    fstep z c y1 e = Some (y2, o2) /\ m_crv (fm_st y2) !! ca = Some d2.
Proof.
  intros Z B1 B2. destruct (vector_replaced z c (saying z ca "07" d1) (saying z ca "08" d2)) as (y1 & o1 & y2 & o2 & R1 & V1 & R2 & V2); try done.
  rewrite saying_crv in V1, V2 by done. exists (first_vector (saying z ca "07" d1) (saying z ca "08" d2)), (FStep 0 7 "t" no_key), y1, o1.
  cbn [frun] in R2. destruct (fstep z c y1 (FStep 0 7 "t" no_key)) as [[y3 o3]|] eqn:S; [|done]. injection R2 as <- _. exists y3, o3. by split_and!.
Qed.

Lemma sets_ok : gzip_ok toy_z /\ bs_ok (bs_new 64) /\ bs_ok (bs_set (bs_new 64) 3).
Proof. split; [done|]. split; vm_compute; done. Qed.
Lemma day_accuses : 0 < accusations "localhost:9101" (out_of day).
Proof. destruct day_shows as [H _]. unfold sent_to in H. rewrite H. apply le_n. Qed.
Lemma early_quiet : GAccuse "localhost:9100" ∉ fm_go (fst_of early).
Proof. destruct early_shows as [_ ->]. apply not_elem_of_nil. Qed.
