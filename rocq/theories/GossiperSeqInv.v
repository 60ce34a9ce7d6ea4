(** Invariants of sequential histories (one handler at a time). *)
From Verif Require Import Bytes Hex Json Types Crypto Verify Prog Gossiper SpecVerify SpecGossiper ProgFacts GstFacts CodecFacts CryptoFacts VerifyFacts GWalk GossiperInv GossiperSeq GossiperEvidence GossiperStep.
From Coq Require Import Lia.
Open Scope string_scope.

Section seqwalk.
Context {P : prims} (cfg : gconf P).
Notation cc := (gc_crypto cfg).
Notation T := (cc_threshold cc).

(** Events that are neither stores, nor signatures, nor wipes. *)
Definition plain (e : gevt) : Prop := match e with EvStored _ | EvSigned _ _ | EvWiped => False | _ => True end.

Context (J : gst -> Prop) (H : gobj -> Prop).

Record seq_ok : Prop := {
  q_gen : forall g, ~ statement g -> H g;
  q_trace : forall s l, J s -> Forall plain l -> J (add_trace s l);
  q_sign : forall s g fr, J s -> EvStored g ∈ t_trace s -> J (add_trace s [EvSigned g fr]);
  q_stmt : forall s g f, J s -> H g -> f <> Acc -> obj_kind g = KObj (OInit f) -> verify cc g = Accept ->
    is_duplicate s g = false -> is_malicious s g = false -> J (inserted s (OInit f) g);
  q_acc : forall s g, J s -> obj_kind g = KObj (OInit Acc) -> verify cc g = Accept -> J (inserted s (OInit Acc) g);
  q_con : forall s g, J s -> obj_kind g = KObj OCon -> verify cc g = Accept -> is_duplicate s g = false ->
    J (black_add (inserted s OCon g) (g_p0 g));
  q_full : forall s g f, J s -> obj_kind g = KObj (OFull f) -> verify cc g = Accept ->
    J (if decide (f = Acc) then black_add (inserted s (OFull f) g) (g_p0 g) else inserted s (OFull f) g);
  q_reads : forall s g f, J s -> obj_kind g = KFrag f -> J (read_and_store cfg f g s).1;
  q_conv : forall s, J s -> J (set_conv s (k_second s));
  q_conv_init : forall s, J s -> J (set_conv_init s (k_second s));
  q_payload : forall s g, J s -> verify cc g = Accept -> obj_kind g = KObj (OInit Rev) ->
    J (set_payload s (<[get_id g := g]> (t_payload s)));
  q_clock : forall s a b c, J s -> J (set_clock s a b c)
}.

Context (Q : seq_ok).

Definition stored_task (s : gst) (t : gtask) : Prop := match t with SignLater g => EvStored g ∈ t_trace s end.

(** A program keeps [J] and creates timers for stored objects only. *)
Definition fine (p : gprog unit) : Prop := forall s, J s ->
  J (run p s).1.1 /\ Forall (stored_task (run p s).1.1) (run p s).1.2 /\ t_trace s `prefix_of` t_trace (run p s).1.1.

Lemma J_conv_i s : J s -> J (conv_i cfg s).
Proof using Q. intros Hs. unfold conv_i. destruct (is_init_convergent cfg s); [|done]. by apply (q_conv_init Q). Qed.

Lemma sends_plain g : Forall plain (sends cfg g).
Proof. unfold sends. apply Forall_map, Forall_true. done. Qed.

(** Store of an INIT object. *)
Lemma fine_init_store f g s : J s -> obj_kind g = KObj (OInit f) -> H g -> (f <> Acc -> is_malicious s g = false) ->
  let r := run (store cfg g) s in
  J r.1.1 /\ r.1.2 = [] /\ t_trace s `prefix_of` t_trace r.1.1 /\ (r.2 = Done true -> EvStored g ∈ t_trace r.1.1).
Proof using Q.
  intros Hs Hk Hg Hm. cbn zeta. destruct (verify cc g) eqn:Hv.
  - rewrite run_store by done. rewrite Hk. destruct (is_duplicate s g) eqn:Ed; cbn [fst snd]; [by split_and!|].
    destruct (conv_i_fields cfg (inserted s (OInit f) g)) as (_ & _ & _ & Et & _). rewrite Et. unfold inserted at 2 3. autorewrite with gst.
    split_and!; [|done|by apply prefix_app_r|intros _; apply elem_of_app; right; by left].
    apply J_conv_i. destruct (decide (f = Acc)) as [->|Hf]; [by apply (q_acc Q)|]. apply (q_stmt Q); auto.
  - rewrite run_store_no by done. by split_and!.
  - unfold store. rewrite Hv. by split_and!.
Qed.

Lemma fine_stmt n f g : f <> Acc -> obj_kind g = KObj (OInit f) -> H g ->
  (forall now o, fine (handle_n cfg n (generate_con now o g))) -> fine (handle_n cfg (S n) g).
Proof using Q.
  intros Hf Hk Hg Hrec s Hs. cbn [handle_n]. unfold handle_body. cbn [pbind pread run].
  destruct (is_duplicate s g) eqn:Ed; [by cbn|]. cbn [pbind pread run]. destruct (in_blacklist s (g_p0 g)) eqn:Eb; [by cbn|].
  assert (let r := run (handle_init cfg (handle_n cfg n) f g) s in
    J r.1.1 /\ Forall (stored_task r.1.1) r.1.2 /\ t_trace s `prefix_of` t_trace r.1.1) as Hr.
  { cbn zeta. unfold handle_init. cbn [pbind pread run]. destruct (Nat.ltb _ _); [by cbn|]. cbn [pbind pread run].
    destruct (Nat.leb _ _); [by cbn|]. cbn [pbind pread run]. destruct (is_malicious s g) eqn:Em.
    { cbn [pbind pread run]. by apply Hrec. }
    rewrite run_bind. destruct (fine_init_store f g s Hs Hk Hg ltac:(auto)) as (A1 & A2 & A3 & A4).
    destruct (run (store cfg g) s) as [[s1 t1] [b|w]]; cbn [fst snd] in *; subst t1; [|done].
    destruct b; cbn [negb]; [|by cbn]. unfold send_to_gossipers, send_to_monitor. cbn [pbind pmodify run pfork fst snd app].
    fold (sends cfg g). split_and!.
    - repeat apply (q_trace Q); [done|apply sends_plain|by constructor].
    - constructor; [|done]. cbn. autorewrite with gst. rewrite !elem_of_app. left. left. by apply A4.
    - autorewrite with gst. rewrite <- app_assoc. by apply prefix_app_r. }
  destruct f; [| |done]; rewrite Hk; exact Hr.
Qed.

Lemma fine_acc n g : obj_kind g = KObj (OInit Acc) -> H g -> (forall sg, fine (handle_n cfg n (frag_of cfg g sg))) ->
  fine (handle_n cfg (S n) g).
Proof using Q.
  intros Hk Hg Hrec s Hs. cbn [handle_n]. unfold handle_body. cbn [pbind pread run].
  destruct (is_duplicate s g) eqn:Ed; [by cbn|]. cbn [pbind pread run]. destruct (in_blacklist s (g_p0 g)) eqn:Eb; [by cbn|].
  rewrite Hk. unfold handle_acc_init. cbn [pbind pread run]. destruct (Nat.ltb _ _); [by cbn|]. cbn [pbind pread run].
  destruct (Nat.leb _ _); [by cbn|]. 
  rewrite run_bind. destruct (fine_init_store Acc g s Hs Hk Hg ltac:(done)) as (A1 & A2 & A3 & A4).
  destruct (run (store cfg g) s) as [[s1 t1] [b|w]]; cbn [fst snd] in *; subst t1; [|done].
  destruct b; cbn [negb]; [|by cbn]. cbn [pbind pread run]. destruct (in_blacklist s1 (g_p0 g)); [by cbn|].
  unfold generate_frag. destruct (cc_thr_sign cc (signed_msg g)) as [sf|]; [|by cbn].
  cbn [pbind pmodify run]. set (s2 := add_trace s1 _).
  assert (J s2) as J2 by (apply (q_sign Q); [done|by apply A4]).
  destruct (Hrec (sigfrag_string sf) s2 J2) as (B1 & B2 & B3).
  destruct (run (handle_n cfg n _) s2) as [[s3 t3] r]. cbn [fst snd app] in *. split_and!; auto.
  etransitivity; [exact A3|]. etransitivity; [|exact B3]. unfold s2. autorewrite with gst. by apply prefix_app_r.
Qed.

Lemma fine_con n g : obj_kind g = KObj OCon -> fine (handle_n cfg (S n) g).
Proof using Q.
  intros Hk s Hs. rewrite (handle_conflict cfg n) by done.
  destruct (is_duplicate s g) eqn:Ed; [by cbn|]. destruct (in_blacklist s (g_p0 g)); [by cbn|].
  destruct (get_tbl s OCon !! get_id g); [by cbn|]. destruct (verify cc g) eqn:Hv; [|by cbn|by cbn].
  cbn [fst snd]. unfold published. split_and!; [|done|].
  - repeat apply (q_trace Q); [|apply sends_plain|by constructor]. apply J_conv_i. by apply (q_con Q).
  - autorewrite with gst. destruct (conv_i_fields cfg (black_add (inserted s OCon g) (g_p0 g))) as (_ & _ & _ & -> & _).
    destruct (black_add_fields (inserted s OCon g) (g_p0 g)) as (_ & _ & _ & -> & _).
    unfold inserted. autorewrite with gst. rewrite <- !app_assoc. by apply prefix_app_r.
Qed.

Lemma fine_full n f g : obj_kind g = KObj (OFull f) -> fine (handle_n cfg (S n) g).
Proof using Q.
  intros Hk s Hs. cbn [handle_n]. unfold handle_body. cbn [pbind pread run].
  destruct (is_duplicate s g) eqn:Ed; [by cbn|]. cbn [pbind pread run]. destruct (in_blacklist s (g_p0 g)) eqn:Eb; [by cbn|].
  rewrite Hk. unfold handle_full. cbn [pbind pread run]. rewrite Eb. cbn [pbind pread run].
  assert (forall s1, J s1 -> t_trace s `prefix_of` t_trace s1 ->
    let r := run ((do conv <- pread (is_convergent cfg); pwhen conv (pmodify (λ s, set_conv s (k_second s)))) : gprog unit) s1 in
    J r.1.1 /\ r.1.2 = [] /\ t_trace s `prefix_of` t_trace r.1.1) as Hrest.
  { intros s1 J1 Hp. cbn. destruct (is_convergent cfg s1); cbn; [|done]. split_and!; [by apply (q_conv Q)|done|by autorewrite with gst]. }
  destruct (Nat.eqb _ 0).
  2: { cbn [pskip pbind]. pose proof (Hrest s Hs (reflexivity _)) as A. cbn in A |- *. destruct (is_convergent cfg s); cbn in A |- *; destruct A as (A1 & _ & A3); by split_and!. }
  rewrite run_bind, run_bind. 
  assert (J (run (store cfg g) s).1.1 /\ (run (store cfg g) s).1.2 = [] /\ t_trace s `prefix_of` t_trace (run (store cfg g) s).1.1) as (B1 & B2 & B3).
  { destruct (verify cc g) eqn:Hv.
    - rewrite run_store by done. rewrite Hk. cbn [fst snd]. split_and!; [by apply (q_full Q)|done|].
      destruct (decide _).
      + destruct (black_add_fields (inserted s (OFull f) g) (g_p0 g)) as (_ & _ & _ & -> & _). unfold inserted. autorewrite with gst. by apply prefix_app_r.
      + unfold inserted. autorewrite with gst. by apply prefix_app_r.
    - rewrite run_store_no by done. done.
    - unfold store. rewrite Hv. done. }
  destruct (run (store cfg g) s) as [[s1 t1] [b|w]]; cbn [fst snd] in *; subst t1; [|done].
  unfold send_to_monitor. cbn [pmodify run].
  pose proof (Hrest (add_trace s1 [ToMonitor (gc_owner cfg) g])) as A. feed specialize A.
  { apply (q_trace Q); [done|]. by constructor. }
  { autorewrite with gst. by apply prefix_app_r. }
  cbn in A |- *. destruct (is_convergent cfg _); cbn in A |- *; destruct A as (A1 & _ & A3); by split_and!.
Qed.

Lemma fine_frag n f g : obj_kind g = KFrag f -> (forall g', obj_kind g' = KObj (OFull f) -> fine (handle_n cfg n g')) ->
  fine (handle_n cfg (S n) g).
Proof using Q.
  intros Hk Hrec s Hs. cbn [handle_n]. unfold handle_body. cbn [pbind pread run].
  destruct (is_duplicate s g) eqn:Ed; [by cbn|]. cbn [pbind pread run]. destruct (in_blacklist s (g_p0 g)) eqn:Eb; [by cbn|].
  rewrite Hk. unfold handle_frag. cbn [pbind pread run]. destruct (Nat.ltb 0 _); [by cbn|].
  cbn [pbind patomic run].
  pose proof (q_reads Q s g f Hs Hk) as J1.
  assert (t_trace s `prefix_of` t_trace (read_and_store cfg f g s).1) as R1.
  { unfold read_and_store. cbn [fst]. autorewrite with gst. destruct (Nat.ltb _ _); autorewrite with gst; by apply prefix_app_r. }
  destruct (read_and_store cfg f g s) as [s1 before] eqn:Er. cbn [fst] in *.
  assert (forall s2, J s2 -> t_trace s `prefix_of` t_trace s2 ->
     let r := run (pwhen (Nat.ltb before T) (send_to_gossipers cfg g)) s2 in
     J r.1.1 /\ r.1.2 = [] /\ t_trace s2 `prefix_of` t_trace r.1.1) as Hrest.
  { intros s2 J2 R2. destruct (Nat.ltb before T); cbn [pwhen send_to_gossipers pmodify run pskip fst snd]; [|done].
    fold (sends cfg g). split_and!; [apply (q_trace Q); [done|apply sends_plain]|done|]. autorewrite with gst. by apply prefix_app_r. }
  rewrite run_bind. destruct (Nat.eqb (S before) T).
  2: { cbn [pskip run]. destruct (Hrest s1 J1 R1) as (A1 & A2 & A3).
       destruct (run (pwhen _ _) s1) as [[s2 t2] r]. cbn [fst snd] in *. subst t2. split_and!; [done|by constructor|]. exact (transitivity R1 A3). }
  cbn [pbind pread run]. unfold generate_full. 
  destruct (cc_thr_aggregate cc _) as [ts|]; [|by cbn]. destruct (get_object_list s1 (get_id g) f) as [|g0 l] eqn:El; [by cbn|].
  cbn [pbind pread run pmodify].
  set (full := mkobj _ _ _ _ _ _ _ _ _ _ _ _).
  assert (obj_kind full = KObj (OFull f)) as Hfk by (unfold obj_kind; cbn; by apply target_kind).
  set (s2 := add_trace s1 [EvFull full]).
  assert (J s2) as J2 by (apply (q_trace Q); [done|]; by constructor).
  assert (t_trace s1 `prefix_of` t_trace s2) as R2 by (unfold s2; autorewrite with gst; by apply prefix_app_r).
  destruct (Hrec full Hfk s2 J2) as (B1 & B2 & B3).
  destruct (run (handle_n cfg n full) s2) as [[s3 t3] [a|w]]; cbn [fst snd] in *; [|split_and!; auto; do 2 (etransitivity; [eassumption|]); done].
  destruct (Hrest s3 B1) as (C1 & C2 & C3); [do 2 (etransitivity; [eassumption|]); done|].
  destruct (run (pwhen _ _) s3) as [[s4 t4] r]. cbn [fst snd] in *. subst t4. rewrite app_nil_r. split_and!.
  - done.
  - eapply Forall_impl; [exact B2|]. intros [x] Hx. cbn in *. eapply elem_of_prefix; eauto.
  - do 3 (etransitivity; [eassumption|]). done.
Qed.

Lemma fine_handle_n n g : rank g <= n -> H g -> fine (handle_n cfg n g).
Proof using Q.
  revert g. induction n as [|n IH]; intros g Hr Hg.
  { exfalso. unfold rank in Hr. destruct (obj_kind g) as [[]| |]; lia. }
  unfold rank in Hr. destruct (obj_kind g) as [[f| |f]|f|] eqn:Ek.
  - destruct (decide (f = Acc)) as [->|Hf].
    + apply fine_acc; auto. intros sg. apply IH.
      * unfold rank. rewrite (frag_of_kind cfg g sg Acc Ek). lia.
      * apply (q_gen Q). intros Hs. assert (obj_kind (frag_of cfg g sg) = KFrag Acc) as Hk by by apply frag_of_kind.
        apply obj_kind_frag in Hk. unfold statement in Hs. rewrite Hk in Hs. destruct Hs; done.
    + apply (fine_stmt n f); auto. intros now o. apply IH; [unfold rank; rewrite con_kind; lia|].
      apply (q_gen Q). intros [?|?]; done.
  - by apply fine_con.
  - by apply (fine_full n f).
  - apply (fine_frag n f); auto. intros g' Hk'. apply IH; [unfold rank; rewrite Hk'; lia|].
    apply (q_gen Q). intros Hs. apply obj_kind_obj in Hk'. unfold statement in Hs. rewrite Hk' in Hs. destruct f, Hs; done.
  - intros s Hs. cbn [handle_n]. unfold handle_body. cbn [pbind pread run]. destruct (is_duplicate s g); [by cbn|].
    cbn [pbind pread run]. destruct (in_blacklist s _); [by cbn|]. rewrite Ek. by cbn.
Qed.

Lemma fine_handle g : H g -> fine (handle cfg g).
Proof using Q. intros Hg. apply fine_handle_n; [apply rank_le|done]. Qed.

Definition JS (y : gsys) : Prop := J (s_st y) /\ Forall (stored_task (s_st y)) (s_tasks y).

Lemma exec_fine p y ts : JS y -> Forall (stored_task (s_st y)) ts -> 
  (let r := run p (s_st y) in J r.1.1 /\ Forall (stored_task r.1.1) r.1.2 /\ t_trace (s_st y) `prefix_of` t_trace r.1.1) ->
  JS (exec p y ts).
Proof using.
  clear. intros [H1 H2] Ht Hp. cbn zeta in Hp. unfold exec. destruct (run p (s_st y)) as [[s' new] r]. cbn [fst snd] in *.
  destruct Hp as (A1 & A2 & A3). split; [done|]. cbn. apply Forall_app. split; [|done].
  eapply Forall_impl; [exact Ht|]. intros [x] Hx. cbn in *. eapply elem_of_prefix; eauto.
Qed.

(** Events without the period change. *)
Definition plain_event (e : gevent) : Prop := match e with Recv _ g => H g | Period => False | _ => True end.

Lemma step_fine y e : (match e with Recv _ g => H g | _ => True end) ->
  (e = Period -> J (s_st y) -> J (run periodic (s_st y)).1.1) -> JS y -> JS (step cfg y e).
Proof using Q.
  intros He Hp HJ. pose proof HJ as [H1 H2]. destruct e as [n g|n|n|i|a b c|]; cbn [step].
  - apply exec_fine; auto. cbn zeta. unfold object_handler. rewrite run_bind.
    set (b := _ && _). 
    assert (let r := run (pwhen b (save_payload cfg g)) (s_st y) in
      J r.1.1 /\ r.1.2 = [] /\ t_trace (s_st y) `prefix_of` t_trace r.1.1) as Hpay.
    { destruct b eqn:Eb; [|by cbn]. cbn [pwhen]. unfold save_payload. apply andb_true_iff in Eb as [_ Eb]. apply bool_decide_eq_true in Eb.
      destruct (verify cc g) eqn:Hv; [|by cbn|by cbn]. cbn. split_and!; [by apply (q_payload Q)|done|by autorewrite with gst]. }
    destruct (run (pwhen b (save_payload cfg g)) (s_st y)) as [[s1 t1] [x|w]]; cbn [fst snd] in *; destruct Hpay as (A1 & -> & A3); [|done].
    assert (forall g', H g' -> let r := run (handle cfg g') s1 in J r.1.1 /\ Forall (stored_task r.1.1) r.1.2 /\ t_trace (s_st y) `prefix_of` t_trace r.1.1) as Hh.
    { intros g' Hg'. destruct (fine_handle g' Hg' s1 A1) as (B1 & B2 & B3). split_and!; auto. by etransitivity. }
    destruct (gc_opt_mode cfg && _) eqn:Em.
    + cbn [pbind pread run]. destruct (Hh (reconstruct_payload s1 g)) as (B1 & B2 & B3).
      { apply (q_gen Q). apply andb_true_iff in Em as [_ Em]. apply bool_decide_eq_true in Em. intros Hs.
        apply obj_kind_frag in Em. assert (g_type (reconstruct_payload s1 g) = g_type g) as Et by by destruct g.
        unfold statement in Hs. rewrite Et, Em in Hs. by destruct Hs. }
      destruct (run (handle cfg _) s1) as [[s2 t2] r]. done.
    + destruct (Hh g He) as (B1 & B2 & B3). destruct (run (handle cfg _) s1) as [[s2 t2] r]. done.
  - apply exec_fine; auto. cbn zeta. unfold notification_handler. cbn [pbind pread run]. destruct (negb _); [|by cbn].
    cbn. split_and!; [apply (q_trace Q); [done|by constructor]|done|]. autorewrite with gst. by apply prefix_app_r.
  - apply exec_fine; auto. cbn zeta. unfold request_handler. cbn [pbind pread run]. destruct (negb _); [|by cbn].
    cbn. split_and!; [apply (q_trace Q); [done|by constructor]|done|]. autorewrite with gst. by apply prefix_app_r.
  - destruct (nth_error (s_tasks y) i) as [[g]|] eqn:E; [|done]. apply nth_split in E. rewrite E in H2.
    apply Forall_app in H2 as [T1 T2]. apply Forall_cons in T2 as [T2 T3]. cbn in T2.
    apply exec_fine; auto; [by apply Forall_app|]. cbn zeta. unfold start_task. cbn [pbind pread run].
    destruct (in_blacklist _ _); [by cbn|]. unfold generate_frag. destruct (cc_thr_sign cc (signed_msg g)) as [sf|]; [|by cbn].
    cbn [pbind pmodify run]. set (s2 := add_trace (s_st y) _).
    assert (J s2) as J2 by (by apply (q_sign Q)).
    destruct (fine_handle (frag_of cfg g (sigfrag_string sf))) with (s := s2) as (B1 & B2 & B3); [|done|].
    { apply (q_gen Q). destruct g as [a p t si ss s0 s1 ti sc p0 p1 p2]. intros Hs. unfold frag_of, statement in Hs. cbn [g_type] in Hs.
      destruct (kind_of t) as [[f| |f]|f|] eqn:Ek.
      - destruct f, Hs; done.
      - destruct Hs as [-> | ->]; done.
      - destruct Hs as [-> | ->]; done.
      - destruct Hs as [-> | ->]; done.
      - destruct Hs as [-> | ->]; done. }
    destruct (run (handle cfg _) s2) as [[s3 t3] r]. cbn [fst snd app] in *. split_and!; auto.
    etransitivity; [|exact B3]. unfold s2. autorewrite with gst. by apply prefix_app_r.
  - split; cbn; [by apply (q_clock Q)|]. eapply Forall_impl; [exact H2|]. intros [x] Hx. cbn in *. by autorewrite with gst.
  - apply exec_fine; auto. cbn zeta. destruct (periodic_run (s_st y)) as (s' & E & _ & _ & _ & _ & _ & Et).
    specialize (Hp eq_refl H1). rewrite E in *. cbn [fst snd] in *. split_and!; auto. rewrite Et. by apply prefix_app_r.
Qed.
End seqwalk.
