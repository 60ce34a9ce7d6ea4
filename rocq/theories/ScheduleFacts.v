(** Facts about the clock. *)
From Verif Require Import Bytes Bitset Clock Types Crypto Verify Merkle Cert CertPool CTngExt Logger Revocation CA Schedule
  SpecCodec SpecMerkle SpecCert SpecLogger SpecCA SpecSchedule LoggerFacts CAFacts CAPoiFacts.
From Coq Require Import Lia ZArith Sorted.
Open Scope Z_scope.
Ltac Zify.zify_post_hook ::= Z.to_euclidean_division_equations.

Lemma total_S late k : total late (S k) = total late k + late k.
Proof.
  unfold total. rewrite seq_S, map_app, foldr_app. cbn.
  generalize (map late (seq 0 k)). intros l. induction l as [|a l IH]; cbn; lia.
Qed.
Lemma total_0 late : total late 0 = 0. Proof. done. Qed.
Lemma total_nonneg late k : delays late -> 0 <= total late k.
Proof. intros H. induction k; [rewrite total_0; lia|]. rewrite total_S. specialize (H k). lia. Qed.
Lemma total_mono late j k : delays late -> (j <= k)%nat -> total late j <= total late k.
Proof. intros H Hjk. induction Hjk; [lia|]. rewrite total_S. specialize (H m). lia. Qed.

Lemma run_time_eq start mmd late k : 0 <= mmd -> run_time start mmd late k = start + Z.of_nat k * (1000 * mmd) + total late k.
Proof. intros H. induction k as [|k IH]; [cbn [run_time]; rewrite total_0; lia|]. cbn [run_time]. rewrite IH, total_S. lia. Qed.

Lemma minute_add a n r : 0 <= r < 60000 -> minute_no (60000 * a + 60000 * n + r) = a + n.
Proof. unfold minute_no. lia. Qed.

Lemma gossiper_starts t : gossiper_start 60 t = 60000 * (minute_no t + 1) + t mod 1000.
Proof. unfold gossiper_start, after_sleep, waiting_time, second_of, minute_no. lia. Qed.

Lemma monitor_starts mode d t : mode = 0 -> 0 <= d -> monitor_start mode 60 d t = 60000 * (minute_no t + 1) + t mod 1000 + d.
Proof. intros -> Hd. unfold monitor_start. cbn [Z.eqb]. unfold after_sleep, waiting_time, second_of, minute_no. lia. Qed.

Lemma logger_starts t : exists r, 0 <= r < 1000 /\
  logger_start t = 60000 * first_minute t + r.
Proof.
  unfold logger_start, first_minute. destruct (Z.eqb_spec (second_of t) 0) as [E|E].
  - exists (t mod 60000). unfold second_of, minute_no in *. destruct (Z.ltb_spec (t mod 60000) 1000); lia.
  - exists (t mod 1000). unfold after_sleep, second_of, minute_no in *. destruct (Z.ltb_spec (t mod 60000) 1000); lia.
Qed.

Lemma ca_starts t : exists r, 0 <= r < 2000 /\
  ca_start t = 60000 * first_minute t + r.
Proof.
  unfold ca_start, first_minute. destruct (Z.eqb_spec (second_of t) 0) as [E|E].
  - exists (t mod 60000). unfold second_of, minute_no in *. destruct (Z.ltb_spec (t mod 60000) 1000); lia.
  - exists (t mod 1000 + 1000). unfold after_sleep, second_of, minute_no in *. destruct (Z.ltb_spec (t mod 60000) 1000); lia.
Qed.

(** ** C104 *)
Lemma runs_aligned a r late k : delays late -> 0 <= r -> r + total late k < 60000 ->
  minute_no (run_time (60000 * a + r) 60 late k) = a + Z.of_nat k.
Proof. intros H Hr Hk. rewrite run_time_eq by lia. pose proof (total_nonneg late k H). unfold minute_no. lia. Qed.

Lemma gossiper_aligned t late k : delays late -> t mod 1000 + total late k < 60000 ->
  minute_no (run_time (gossiper_start 60 t) 60 late k) = minute_no t + 1 + Z.of_nat k.
Proof. intros H Hk. rewrite gossiper_starts. apply runs_aligned; [done|lia|done]. Qed.

Lemma monitor_aligned t d late k : delays late -> 0 <= d -> t mod 1000 + d + total late k < 60000 ->
  minute_no (run_time (monitor_start 0 60 d t) 60 late k) = minute_no t + 1 + Z.of_nat k.
Proof. intros H Hd Hk. rewrite monitor_starts by done. rewrite <- Z.add_assoc. apply runs_aligned; [done|lia|lia]. Qed.

Lemma logger_aligned t late k : delays late -> 1000 + total late k <= 60000 ->
  minute_no (run_time (logger_start t) 60 late k) = first_minute t + Z.of_nat k.
Proof. intros H Hk. destruct (logger_starts t) as (r & Hr & ->). apply runs_aligned; [done|lia|lia]. Qed.

Lemma ca_aligned t late k : delays late -> 2000 + total late k <= 60000 ->
  minute_no (run_time (ca_start t) 60 late k) = first_minute t + Z.of_nat k.
Proof. intros H Hk. destruct (ca_starts t) as (r & Hr & ->). apply runs_aligned; [done|lia|lia]. Qed.

Lemma starts_at_second_0 mmd : (forall t, second_of (gossiper_start mmd t) = 0) <-> exists j, 1 <= j /\ mmd = 60 * j.
Proof.
  split.
  - intros H. pose proof (H 0) as H0. pose proof (H 59000) as H1.
    unfold gossiper_start, after_sleep, waiting_time, second_of in *. exists (mmd / 60). lia.
  - intros (j & Hj & ->) t. unfold gossiper_start, after_sleep, waiting_time, second_of. lia.
Qed.

Lemma run_step late start k : delays late -> run_time start 60 late k + 60000 <= run_time start 60 late (S k).
Proof. intros H. cbn [run_time]. specialize (H k). lia. Qed.

Lemma run_mono late start j k : delays late -> (j <= k)%nat -> run_time start 60 late j + 60000 * (Z.of_nat k - Z.of_nat j) <= run_time start 60 late k.
Proof. intros H Hjk. induction Hjk; [lia|]. pose proof (run_step late start m H). lia. Qed.

(** If no minute is skipped, the runs stay in step. *)
Lemma in_step late start n : (forall k, (k < n)%nat -> minute_no (run_time start 60 late (S k)) = minute_no (run_time start 60 late k) + 1) ->
  minute_no (run_time start 60 late n) = minute_no start + Z.of_nat n.
Proof.
  induction n as [|n IH]; intros H; [cbn [run_time]; lia|]. rewrite H by lia. rewrite IH by (intros; apply H; lia). lia.
Qed.

Lemma find_skip (p : nat -> Prop) (Hp : forall k, {p k} + {~ p k}) n : (forall k, (k < n)%nat -> p k) \/ exists k, (k < n)%nat /\ ~ p k.
Proof.
  induction n as [|n [IH|(k & Hk & H)]]; [left; intros; lia| |right; exists k; split; [lia|done]].
  destruct (Hp n); [left; intros k Hk; destruct (decide (k = n)) as [->|]; [done|apply IH; lia]|right; exists n; split; [lia|done]].
Qed.

Lemma late_skips start late : (forall k, 1 <= late k) ->
  exists m, minute_no start < m /\ forall k, minute_no (run_time start 60 late k) <> m.
Proof.
  intros H. assert (Hd : delays late) by (intros k; specialize (H k); lia).
  assert (Ht : forall k, Z.of_nat k <= total late k).
  { intros k. induction k as [|k IH]; [rewrite total_0; lia|]. rewrite total_S. specialize (H k). lia. }
  set (n := Z.to_nat 60001).
  destruct (find_skip (λ k, minute_no (run_time start 60 late (S k)) = minute_no (run_time start 60 late k) + 1)
              (λ k, Z.eq_dec _ _) n) as [E|(k & Hk & E)].
  - exfalso. pose proof (in_step late start n E) as Hn. rewrite run_time_eq in Hn by lia. specialize (Ht n).
    assert (Z.of_nat n = 60001) by (unfold n; apply Z2Nat.id; lia). clearbody n. unfold minute_no in Hn. lia.
  - exists (minute_no (run_time start 60 late k) + 1). pose proof (run_mono late start 0 k Hd ltac:(lia)) as H0. cbn [run_time] in H0.
    split; [unfold minute_no; lia|]. intros j Hj.
    destruct (decide (j <= k)%nat) as [Hjk|Hjk].
    + pose proof (run_mono late start j k Hd Hjk). unfold minute_no in *. lia.
    + pose proof (run_mono late start (S k) j Hd ltac:(lia)). pose proof (run_step late start k Hd). unfold minute_no in *. lia.
Qed.

(** ** C105 *)
Section timed.
Context {A : Type} (ending : A -> option nat) (ends : nat -> Z) (F now : Z) (l : list (Z * A)).
(** The [k]-th period ends in minute [F + k], or later if [k] is beyond [now]. *)
Context (Hl : timed ending ends now l) (Hfirst : F < minute_no now)
  (Hends : forall k, F + Z.of_nat k <= minute_no now -> minute_no (ends k) = F + Z.of_nat k)
  (Hlater : forall k, minute_no now < F + Z.of_nat k -> now < ends k) (Hhour : minute_of now <> 0).

Lemma sorted_after (l1 l2 : list (Z * A)) x : StronglySorted Z.le (map fst (l1 ++ x :: l2)) -> forall y, y ∈ l2 -> fst x <= fst y.
Proof.
  rewrite map_app. cbn. induction l1 as [|a l1 IH]; cbn; intros H y Hy.
  - apply StronglySorted_inv in H as [_ H]. rewrite Forall_forall in H. apply H. by apply elem_of_list_fmap_1.
  - apply StronglySorted_inv in H as [H _]. by apply IH.
Qed.

Lemma last_end : exists l1 a e m l2, l = (l1 ++ (a, e) :: l2)%list /\ ending e = Some m /\ minute_no a + 1 = minute_no now /\
  m <> 59%nat /\ next_minute m = Z.to_nat (minute_of now) /\
  (forall e' m', e' ∈ map snd l2 -> ending e' = Some m' -> S m' <> next_minute m).
Proof using Hl Hfirst Hends Hlater Hhour.
  set (k := Z.to_nat (minute_no now - 1 - F)). assert (Ek : F + Z.of_nat k = minute_no now - 1) by (unfold k; lia). clearbody k.
  assert (Hk : minute_no (ends k) = F + Z.of_nat k) by (apply Hends; lia).
  destruct (ti_ends _ _ _ _ Hl k) as (e & m & He & Hm). { unfold minute_no in *. lia. }
  pose proof (ti_clock _ _ _ _ Hl _ _ _ He Hm) as Hc. rewrite Hk, Ek in Hc.
  apply elem_of_list_split in He as (l1 & l2 & El).
  assert (Em : next_minute m = Z.to_nat (minute_of now) /\ m <> 59%nat).
  { unfold next_minute, minute_of, minute_no in *. destruct (Nat.eqb_spec m 59); lia. }
  exists l1, (ends k), e, m, l2. split_and!; [done|done|lia|apply Em|apply Em|].
  intros e' m' He' Hm'. apply elem_of_list_fmap in He' as ([a e''] & -> & Ha). cbn in Hm'.
  assert (Hin : (a, e'') ∈ l) by (rewrite El; apply elem_of_app; right; by right).
  destruct (ti_only _ _ _ _ Hl _ _ _ Hin Hm') as [k' ->].
  pose proof (ti_clock _ _ _ _ Hl _ _ _ Hin Hm') as Hc'.
  pose proof (ti_sorted _ _ _ _ Hl) as Hs. rewrite El in Hs. pose proof (sorted_after _ _ _ Hs _ Ha) as Hle. cbn in Hle.
  pose proof (ti_past _ _ _ _ Hl _ _ Hin) as Hpast.
  assert (k' <> k) as Hne.
  { intros ->. apply elem_of_list_lookup in Ha as [j Hj].
    pose proof (ti_once _ _ _ _ Hl (length l1) (length l1 + S j)%nat (ends k) e e'' m m') as H1.
    rewrite El in H1. rewrite lookup_app_r in H1 by lia. rewrite Nat.sub_diag in H1. specialize (H1 eq_refl).
    rewrite lookup_app_r in H1 by lia. replace (length l1 + S j - length l1)%nat with (S j) in H1 by lia. specialize (H1 Hj Hm Hm'). lia. }
  destruct (Z.le_gt_cases (F + Z.of_nat k') (minute_no now)) as [Hb|Hb]; [|specialize (Hlater k' ltac:(lia)); lia].
  rewrite (Hends k' Hb) in Hc'. assert (minute_no (ends k) <= minute_no (ends k')) as Hmm by (unfold minute_no; lia).
  rewrite Hk, (Hends k' Hb) in Hmm. destruct Em as [-> _]. unfold minute_of. fold (minute_no now). lia.
Qed.
End timed.

Lemma close_minute F r late late' k : delays late -> 0 <= late' k -> 0 <= r -> r + total late k + late' k < 20000 ->
  minute_no (close_time (60000 * F + r) 60 late late' k) = F + Z.of_nat k.
Proof. intros H H' Hr Hk. unfold close_time. rewrite run_time_eq by lia. pose proof (total_nonneg late k H). unfold minute_no. lia. Qed.

Lemma close_later F r late late' k now : delays late -> 0 <= late' k -> 0 <= r -> minute_no now < F + Z.of_nat k ->
  now < close_time (60000 * F + r) 60 late late' k.
Proof. intros H H' Hr Hk. unfold close_time. rewrite run_time_eq by lia. pose proof (total_nonneg late k H). unfold minute_no in *. lia. Qed.

Section logger.
Context {P : prims} (c : lconf P) (up : string -> bool).

Lemma head_every_minute k0 t late late' l now s o :
  delays late -> delays late' ->
  (forall k, first_minute t + Z.of_nat k <= minute_no now -> total late k + late' k <= 19000) ->
  timed logger_ending (close_time (logger_start t) 60 late late') now l ->
  lives c up (logger_init 0 k0) (map snd l) s o ->
  first_minute t < minute_no now -> minute_of now <> 0 ->
  exists l1 a p t1 t2 l2 s1 o1 g root tr, l = (l1 ++ (a, Publish p t1 t2) :: l2)%list /\ minute_no a + 1 = minute_no now /\
    lives c up (logger_init 0 k0) (map snd l1) s1 o1 /\
    snd (request_sth s (Z.to_nat (minute_of now))) = Answer g /\ g_type g = STH_INIT /\ g_signer g = lc_signer c /\
    g_period g = unpadded (Z.to_nat (minute_of now)) /\
    extract_root_hash g = Some root /\ new_tree (h_sha256 P) (map c_subject (get_certs (l_pool s1))) = Some tr /\ mt_root tr = root.
Proof.
  intros Hd Hd' Hb Hl Hlive HF Hh. destruct (logger_starts t) as (r & Hr & Es). rewrite Es in Hl.
  destruct (last_end _ _ (first_minute t) now l Hl HF) as (l1 & a & e & m & l2 & El & Em & Ea & Hm & En & Hn); [| |done|].
  - intros k Hk. apply close_minute; [done|apply Hd'|lia|]. specialize (Hb k Hk). lia.
  - intros k Hk. apply close_later; [done|apply Hd'|lia|done].
  - destruct e as [|?|p t1 t2|]; try discriminate Em. injection Em as <-.
    rewrite El, map_app in Hlive. cbn [map snd] in Hlive.
    apply lives_app in Hlive as (s1 & o1 & o2 & H1 & H2 & ->). inversion H2 as [|? ? s2 o3 ? ? o4 Hs H3]; subst.
    cbn in Hs. destruct (publish c up s1 p t1 t2) as [[s2' ms] ok] eqn:Ep. injection Hs as -> <- ->.
    destruct (available_next c up k0 _ _ _ _ _ _ _ _ _ _ _ Hm H1 Ep H3) as (g & root & tr & A1 & A2 & A3 & A4 & A5 & A6 & A7).
    { intros t' t1' t2' Hin. eapply Hn; [exact Hin|done]. }
    rewrite En in *. exists l1, a, p, t1, t2, l2, s1, o1, g, root, tr. by split_and!.
Qed.
End logger.

Lemma pad2_S m : pad2 (S m) <> pad2 0.
Proof. intros H%pad2_inj. discriminate. Qed.

Section full_hour.
Context {P : prims} (c : lconf P) (up : string -> bool).

(** Nothing is ever published for minute 0. *)
Lemma no_head_at_full_hour k0 l s o : lives c up (logger_init 0 k0) l s o -> snd (request_sth s 0) = Answer zero_obj.
Proof.
  intros H. rewrite (reply_normal c up k0 l s o 0 H). unfold shown. f_equal. unfold obj_at.
  destruct (lives_sth c up 0 _ _ _ _ H) as [-> _]; [|done]. intros t t1 t2 _. done.
Qed.
End full_hour.

Section ca.
Context {P : prims} (x : x509lib) (z : gzip) (c : caconf P) (cc : cconf P).

Lemma revocation_every_minute k0 d1 d2 t late late' l now : gzip_ok z ->
  delays late -> delays late' ->
  (forall k, first_minute t + Z.of_nat k <= minute_no now -> total late k + late' k <= 18000) ->
  timed ca_ending (close_time (ca_start t) 60 late late') now l -> indexes_ok (map snd l) ->
  first_minute t < minute_no now -> minute_of now <> 0 ->
  let s0 := ca_init x c 0 k0 d1 d2 in
  exists l1 a p m l2 g, l = (l1 ++ (a, CPeriod p m) :: l2)%list /\ minute_no a + 1 = minute_no now /\
    snd (request_rev (ca_run x z c cc s0 (map snd l)) (Z.to_nat (minute_of now))) = Answer g /\
    g_type g = REV_INIT /\ g_signer g = cac_signer c /\ g_period g = unpadded (Z.to_nat (minute_of now)) /\
    all_published x z c cc s0 (map snd l1 ++ [CPeriod p m]) = (all_published x z c cc s0 (map snd l1) ++ [g])%list.
Proof.
  intros Hz Hd Hd' Hb Hl Hi HF Hh s0. destruct (ca_starts t) as (r & Hr & Es). rewrite Es in Hl.
  destruct (last_end _ _ (first_minute t) now l Hl HF) as (l1 & a & e & m & l2 & El & Em & Ea & Hm & En & Hn); [| |done|].
  - intros k Hk. apply close_minute; [done|apply Hd'|lia|]. specialize (Hb k Hk). lia.
  - intros k Hk. apply close_later; [done|apply Hd'|lia|done].
  - destruct e as [| | | | |p m0]; try discriminate Em. injection Em as ->.
    rewrite El, map_app in Hi |- *. cbn [map snd] in Hi |- *.
    destruct (ca_available x z c cc k0 d1 d2 (map snd l1) p m (map snd l2) Hm Hz) as (g & A1 & A2 & A3 & A4 & A5).
    { intros p' m' Hin. eapply Hn; [exact Hin|done]. }
    { destruct Hi as [H1 H2]. split.
      - intros i Hin. apply H1. apply elem_of_app in Hin as [Hin|Hin]; [apply elem_of_app; by left|].
        apply elem_of_list_singleton in Hin. discriminate.
      - intros p' m' Hin. apply (H2 p' m'). apply elem_of_app in Hin as [Hin|Hin]; apply elem_of_app; [by left|right].
        apply elem_of_list_singleton in Hin as ->. left. }
    rewrite En in *. exists l1, a, p, m, l2, g. by split_and!.
Qed.

Lemma no_revocation_at_full_hour k0 d1 d2 l :
  snd (request_rev (ca_run x z c cc (ca_init x c 0 k0 d1 d2) l) 0) = Answer zero_obj.
Proof.
  destruct (run_type x z c cc l (ca_init x c 0 k0 d1 d2)) as [Et _].
  rewrite (request_normal _ _ Et). unfold shown_rev. f_equal.
  destruct (run_rev x z c cc l (ca_init x c 0 k0 d1 d2) 0) as [-> _]; [|done]. intros p m _. done.
Qed.
End ca.

(** ** C106 *)
Lemma asked_in_time t d D late late' k travel skew : delays late -> delays late' -> 0 <= d -> 0 < D -> 0 <= travel ->
  let start := monitor_start 0 60 d t in
  - D <= skew <= D ->
  t mod 1000 + d + total late k + late' k + 2 * D + travel < 60000 ->
  minute_no (query_time start 60 D late late' k + travel + skew) = minute_no t + 1 + Z.of_nat k.
Proof.
  intros H H' Hd HD Ht start Hs Hb. unfold query_time. assert (0 <? D = true) as -> by lia.
  unfold start. rewrite monitor_starts by done. rewrite run_time_eq by lia.
  pose proof (total_nonneg late k H). specialize (H' k). unfold minute_no. lia.
Qed.

Lemma asked_too_early t d late late' k travel skew : delays late -> 0 <= d -> 0 <= travel ->
  let start := monitor_start 0 60 d t in
  - 60000 <= skew < - (t mod 1000 + d + total late k + travel) ->
  minute_no (query_time start 60 0 late late' k + travel + skew) = minute_no t + Z.of_nat k.
Proof.
  intros H Hd Ht start Hs. unfold query_time. cbn [Z.ltb Z.compare].
  unfold start. rewrite monitor_starts by done. rewrite run_time_eq by lia.
  pose proof (total_nonneg late k H). unfold minute_no. lia.
Qed.

(** ** C107 *)
From Coq Require Import QArith Lqa.
Open Scope Q_scope.

Lemma trunc_nonneg q : 0 <= q -> inject_Z (trunc q) <= q /\ q < inject_Z (trunc q + 1) /\ (0 <= trunc q)%Z.
Proof.
  destruct q as [n d]. unfold Qle, Qlt, trunc, inject_Z. cbn. rewrite !Z.mul_1_r. intros H.
  rewrite Z.quot_div_nonneg by lia. pose proof (Z.div_mod n (Zpos d)) as E. pose proof (Z.mod_pos_bound n (Zpos d)) as B.
  assert (0 <= n / Zpos d)%Z by (apply Z.div_pos; lia). nia.
Qed.

Lemma latency_in_bounds lo hi l n : random_latency lo hi l = Some n -> (lo <= n < hi)%Z.
Proof. induction l as [|e l IH]; cbn; [done|]. destruct (Z.leb_spec lo (trunc (e * inject_Z (hi - lo) + inject_Z lo))); cbn; [|done].
  destruct (Z.ltb_spec (trunc (e * inject_Z (hi - lo) + inject_Z lo)) hi); [|done]. intros [= <-]. lia. Qed.

Lemma latency_hangs lo hi l : (hi <= lo)%Z -> random_latency lo hi l = None.
Proof.
  intros H. destruct (random_latency lo hi l) as [n|] eqn:E; [|done]. apply latency_in_bounds in E. lia.
Qed.

(** One number below 1 is enough. *)
Lemma draw_accepted lo hi e : (0 <= lo)%Z -> (lo < hi)%Z -> 0 <= e ->
  let n := trunc (e * inject_Z (hi - lo) + inject_Z lo) in
  (lo <= n)%Z /\ ((n < hi)%Z <-> e < 1).
Proof.
  intros Hlo Hhi He n. assert (Hd : 0 < inject_Z (hi - lo)) by (rewrite <- (Zlt_Qlt 0); lia).
  assert (Hl : 0 <= inject_Z lo) by (rewrite <- (Zle_Qle 0); lia).
  assert (Hm : 0 <= e * inject_Z (hi - lo)) by nra.
  destruct (trunc_nonneg (e * inject_Z (hi - lo) + inject_Z lo)) as (A & B & C); [lra|]. fold n in A, B, C.
  assert (E : inject_Z hi == inject_Z (hi - lo) + inject_Z lo) by (rewrite <- inject_Z_plus; f_equiv; lia).
  split.
  - assert (inject_Z lo < inject_Z (n + 1)) as H by lra. rewrite <- Zlt_Qlt in H. lia.
  - split; intros H.
    + assert (inject_Z (n + 1) <= inject_Z hi) as H1 by (rewrite <- Zle_Qle; lia). nra.
    + assert (inject_Z n < inject_Z hi) as H1 by nra. by rewrite <- Zlt_Qlt in H1.
Qed.

Lemma latency_returns lo hi l : (0 <= lo)%Z -> (lo < hi)%Z -> Forall (λ e, 0 <= e) l ->
  (exists n, random_latency lo hi l = Some n) <-> Exists (λ e, e < 1) l.
Proof.
  intros Hlo Hhi Hl. induction Hl as [|e l He Hl IH]; cbn [random_latency].
  - split; [intros [? ?]; done|intros H; inversion H].
  - destruct (draw_accepted lo hi e Hlo Hhi He) as [A B]. rewrite (proj2 (Z.leb_le _ _) A). cbn [andb].
    rewrite Exists_cons. destruct (Z.ltb_spec (trunc (e * inject_Z (hi - lo) + inject_Z lo)) hi) as [C|C].
    + split; [intros _; left; by apply B|eauto].
    + rewrite IH. split; [by right|intros [H|H]; [apply B in H; lia|done]].
Qed.

Lemma latency_any lo hi n : (0 <= lo)%Z -> (lo <= n < hi)%Z -> exists e, 0 <= e /\ random_latency lo hi [e] = Some n.
Proof.
  intros Hlo Hn. exists (inject_Z (n - lo) / inject_Z (hi - lo)).
  assert (Hd : 0 < inject_Z (hi - lo)) by (rewrite <- (Zlt_Qlt 0); lia).
  assert (Hm : 0 <= inject_Z (n - lo)) by (rewrite <- (Zle_Qle 0); lia).
  split; [apply Qle_shift_div_l; lra|]. cbn [random_latency].
  set (q := inject_Z (n - lo) / inject_Z (hi - lo) * inject_Z (hi - lo) + inject_Z lo).
  assert (Eq : q == inject_Z n).
  { unfold q. rewrite Qmult_comm, Qmult_div_r by lra. rewrite <- inject_Z_plus. f_equiv. lia. }
  assert (0 <= inject_Z n) by (rewrite <- (Zle_Qle 0); lia).
  destruct (trunc_nonneg q) as (A & B & C); [lra|].
  assert (inject_Z (trunc q) <= inject_Z n) as A1 by lra. assert (inject_Z n < inject_Z (trunc q + 1)) as B1 by lra.
  rewrite <- Zle_Qle in A1. rewrite <- Zlt_Qlt in B1.
  assert (trunc q = n) as -> by lia. rewrite (proj2 (Z.leb_le _ _)), (proj2 (Z.ltb_lt _ _)) by lia. done.
Qed.

Lemma uniform_latency lo hi r : (forall n, (0 < n)%Z -> (0 <= r n < n)%Z) ->
  ((lo < hi)%Z -> exists n, compute_random_latency lo hi r = Some n /\ (lo <= n < hi)%Z) /\
  ((hi <= lo)%Z -> compute_random_latency lo hi r = None).
Proof.
  intros H. unfold compute_random_latency. destruct (Z.ltb_spec 0 (hi - lo)); split; intros; try lia; [|done].
  specialize (H (hi - lo)%Z). exists (lo + r (hi - lo))%Z. split; [done|lia].
Qed.
