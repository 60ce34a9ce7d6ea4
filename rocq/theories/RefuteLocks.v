(** Schedules in which the goroutines of one process collide. *)
From Verif Require Import Bytes Types Locks SpecLocks LocksFacts LockUse LockUseFacts.
Open Scope string_scope.

(** Whether goroutine [i] is about to do [o]. *)
Definition nextop (c : proc) (i : nat) : option op := match pr_threads c !! i with Some (o :: _) => Some o | _ => None end.
Lemma nextop_about c i o : nextop c i = Some o -> about_to c i o.
Proof. unfold nextop, about_to. destruct (pr_threads c !! i) as [[|x r]|]; try discriminate. intros E. injection E as ->. by exists r. Qed.
Lemma collision_intro c m i j : i <> j -> nextop c i = Some (Write m) -> (nextop c j = Some (Read m) \/ nextop c j = Some (Write m)) -> collision c m.
Proof. intros Hij Hi Hj. exists i, j. split; [done|]. split; [by apply nextop_about|]. destruct Hj; [left|right]; by apply nextop_about. Qed.
Lemma only2 (Q : list op -> Prop) a b s : Q a -> Q b -> only_steps s -> only Q (Start a :: Start b :: s).
Proof.
  intros Ha Hb Hs ops Ho. apply elem_of_cons in Ho as [E|Ho]; [by injection E as ->|]. apply elem_of_cons in Ho as [E|Ho]; [by injection E as ->|].
  destruct (Hs _ Ho) as [i E]. discriminate.
Qed.
Lemma steps_repeat i n : only_steps (repeat (Go i) n).
Proof. intros e He. exists i. induction n as [|n IH]; [by apply elem_of_nil in He|]. apply elem_of_cons in He as [->|He]; auto. Qed.
Lemma steps_app a b : only_steps a -> only_steps b -> only_steps (a ++ b).
Proof. intros Ha Hb e He. apply elem_of_app in He as [He|He]; auto. Qed.

Lemma frag_handler_ok f : gossip_handler (frag_handler f).
Proof.
  exists [GTraffic false; GIsDuplicate (KFrag f) false; GInBlacklist; GCount (KObj (OFull f)); GReadAndStore f true]. split; [|done].
  intros c Hc. repeat (apply elem_of_cons in Hc as [->|Hc]; [done|]). by apply elem_of_nil in Hc.
Qed.

(** 17 steps bring the handler of a fragment to the point where it changes the map, 18 to the point where it unlocks. *)
Definition gl_save : list lev := Start (frag_handler Sth) :: Start (gossip_period 0 0 0 true) :: repeat (Go 0) 17.
Definition gl_die : list lev := Start (frag_handler Sth) :: Start (gossip_period 0 0 0 true) :: (repeat (Go 0) 18 ++ repeat (Go 1) 6 ++ [Go 0])%list.
Definition gl_both : list lev := Start (frag_handler Sth) :: Start (frag_handler Sth) :: (repeat (Go 0) 17 ++ Start (gossip_period 0 0 0 true) :: repeat (Go 2) 6 ++ repeat (Go 1) 17)%list.

Lemma frag_goroutine f : gossip_goroutine (frag_handler f).
Proof. left. apply frag_handler_ok. Qed.
Lemma period_goroutine n1 n2 n3 b : gossip_goroutine (gossip_period n1 n2 n3 b).
Proof. right. by exists n1, n2, n3, b. Qed.

Lemma gossiper_save_collides : only gossip_goroutine gl_save /\ collision (lrun gl_save) "STH_FRAG".
Proof.
  split; [apply only2; [apply frag_goroutine|apply period_goroutine|apply steps_repeat]|].
  apply (collision_intro _ _ 0 1); [done|vm_compute; reflexivity|left; vm_compute; reflexivity].
Qed.
Lemma gossiper_wipe_dies : only gossip_goroutine gl_die /\ pr_dead (lrun gl_die) = true.
Proof.
  split; [|vm_compute; reflexivity]. apply only2; [apply frag_goroutine|apply period_goroutine|]. apply steps_app; [apply steps_repeat|]. apply steps_app; [apply steps_repeat|apply (steps_repeat 0 1)].
Qed.
Lemma gossiper_wipe_lets_in : only gossip_goroutine gl_both /\ nextop (lrun gl_both) 0 = Some (Write "STH_FRAG") /\ nextop (lrun gl_both) 1 = Some (Write "STH_FRAG").
Proof.
  split; [|split; vm_compute; reflexivity]. intros ops Ho. unfold gl_both in Ho.
  apply elem_of_cons in Ho as [E|Ho]; [injection E as ->; apply frag_goroutine|]. apply elem_of_cons in Ho as [E|Ho]; [injection E as ->; apply frag_goroutine|].
  apply elem_of_app in Ho as [Ho|Ho]; [destruct (steps_repeat 0 17 _ Ho); discriminate|]. apply elem_of_cons in Ho as [E|Ho]; [injection E as ->; apply period_goroutine|].
  apply elem_of_app in Ho as [Ho|Ho]; [destruct (steps_repeat 2 6 _ Ho); discriminate|destruct (steps_repeat 1 17 _ Ho); discriminate].
Qed.
Lemma gossiper_refuted : (exists l, only gossip_goroutine l /\ pr_dead (lrun l) = true) /\
  (exists l, only gossip_goroutine l /\ exists i, about_to (lrun l) i (Read "STH_FRAG") /\ collision (lrun l) "STH_FRAG") /\
  (exists l i j, only gossip_goroutine l /\ i <> j /\ about_to (lrun l) i (Write "STH_FRAG") /\ about_to (lrun l) j (Write "STH_FRAG")).
Proof.
  split; [exists gl_die; exact gossiper_wipe_dies|]. split.
  - exists gl_save. destruct gossiper_save_collides as [H1 H2]. split; [done|]. exists 1. split; [|done]. apply nextop_about. vm_compute. reflexivity.
  - exists gl_both, 0, 1. destruct gossiper_wipe_lets_in as (H1 & H2 & H3). split; [done|]. split; [done|]. split; by apply nextop_about.
Qed.

Definition con_store : list op := mon_handler (KObj OCon) false.
Definition ml_delta : list lev := Start con_store :: Start con_store :: (repeat (Go 0) 7 ++ repeat (Go 1) 7)%list.
Definition ml_crv : list lev := Start (crv_timer false) :: Start (crv_timer false) :: repeat (Go 0) 3.
Definition ml_query : list lev := Start con_store :: Start (mon_round [false]) :: (repeat (Go 0) 5 ++ [Go 1])%list.
Definition ml_period : list lev := Start (mon_handler (KObj (OInit Sth)) false) :: Start (mon_period [] [] [] [] [] [] [] 0 0 0 0 0) :: (repeat (Go 0) 5 ++ repeat (Go 1) 2)%list.
Definition ml_accuse : list lev := Start (mon_handler (KObj (OInit Sth)) false) :: Start (accuse_timer false true false) :: repeat (Go 0) 5.

Lemma con_store_ok : mon_request con_store.
Proof. left. by exists (KObj OCon), false. Qed.
Lemma sth_store_ok : mon_request (mon_handler (KObj (OInit Sth)) false).
Proof. left. by exists (KObj (OInit Sth)), false. Qed.
Lemma monitor_refuted :
  (exists l, only mon_request l /\ collision (lrun l) "Storage_CONFLICT_POM_DELTA") /\
  (exists l, only (λ ops, exists b, ops = crv_timer b) l /\ collision (lrun l) "Storage_CRV") /\
  (exists l, only (λ ops, mon_request ops \/ exists cs, ops = mon_round cs) l /\ collision (lrun l) "Storage_CONFLICT_POM") /\
  (exists l, only (λ ops, mon_request ops \/ exists b1 b2 b3, ops = accuse_timer b1 b2 b3) l /\ collision (lrun l) "Storage_TEMP") /\
  (exists l, only mon_goroutine l /\ (exists c1 c2 w1 w2 w3 w4 w5 n1 n2 n3 n4 n5, Start (mon_period c1 c2 w1 w2 w3 w4 w5 n1 n2 n3 n4 n5) ∈ l) /\ collision (lrun l) "Storage_TEMP").
Proof.
  split; [|split; [|split; [|split]]].
  - exists ml_delta. split; [apply only2; [apply con_store_ok|apply con_store_ok|apply steps_app; apply steps_repeat]|].
    apply (collision_intro _ _ 0 1); [done|vm_compute; reflexivity|right; vm_compute; reflexivity].
  - exists ml_crv. split; [apply only2; [by exists false|by exists false|apply steps_repeat]|].
    apply (collision_intro _ _ 0 1); [done|vm_compute; reflexivity|left; vm_compute; reflexivity].
  - exists ml_query. split; [apply only2; [left; apply con_store_ok|right; by exists [false]|apply steps_app; [apply steps_repeat|apply (steps_repeat 1 1)]]|].
    apply (collision_intro _ _ 0 1); [done|vm_compute; reflexivity|left; vm_compute; reflexivity].
  - exists ml_accuse. split; [apply only2; [left; apply sth_store_ok|right; by exists false, true, false|apply steps_repeat]|].
    apply (collision_intro _ _ 0 1); [done|vm_compute; reflexivity|left; vm_compute; reflexivity].
  - exists ml_period. split; [apply only2; [left; apply sth_store_ok|do 4 right; by exists [], [], [], [], [], [], [], 0, 0, 0, 0, 0|apply steps_app; apply steps_repeat]|].
    split; [exists [], [], [], [], [], [], [], 0, 0, 0, 0, 0; right; left|].
    apply (collision_intro _ _ 0 1); [done|vm_compute; reflexivity|left; vm_compute; reflexivity].
Qed.

Definition cl_poi : list lev := Start ca_sth :: Start (ca_poi true) :: repeat (Go 0) 2.
Definition cl_issue : list lev := Start (ca_begin 0 [(false, true)]) :: Start (ca_poi true) :: (repeat (Go 0) 3 ++ [Go 1])%list.
Definition cl_rev : list lev := Start ca_end :: [Start (ca_rev false false false)].
Lemma ca_refuted :
  (exists l, only ca_request l /\ collision (lrun l) "STH_storage") /\
  (exists l, only ca_goroutine l /\ collision (lrun l) "bySubjectKeyId") /\
  (exists l, only ca_goroutine l /\ collision (lrun l) "REV_storage").
Proof.
  split; [|split].
  - exists cl_poi. split; [apply only2; [by left|right; left; by exists true|apply steps_repeat]|].
    apply (collision_intro _ _ 0 1); [done|vm_compute; reflexivity|left; vm_compute; reflexivity].
  - exists cl_issue. split; [apply only2; [right; left; by exists 0, [(false, true)]|left; right; left; by exists true|apply steps_app; [apply steps_repeat|apply (steps_repeat 1 1)]]|].
    apply (collision_intro _ _ 0 1); [done|vm_compute; reflexivity|left; vm_compute; reflexivity].
  - exists cl_rev. split; [apply only2; [by right; right|left; right; right; by exists false, false, false|apply (steps_repeat 0 0)]|].
    apply (collision_intro _ _ 0 1); [done|vm_compute; reflexivity|left; vm_compute; reflexivity].
Qed.

Definition ll_publish : list lev := Start log_publish :: Start (log_sth false false) :: repeat (Go 1) 2.
Lemma logger_refuted : exists l, only log_goroutine l /\ collision (lrun l) "STH_storage".
Proof.
  exists ll_publish. split; [apply only2; [by right|left; right; by exists false, false|apply steps_repeat]|].
  apply (collision_intro _ _ 0 1); [done|vm_compute; reflexivity|left; vm_compute; reflexivity].
Qed.

(** Two handlers of fragments at work at the same time: one is inside the critical section, the other one waits for it. *)
Definition gl_busy : list lev :=
  Start (frag_handler Sth) :: Start (frag_handler Sth) :: (repeat (Go 0) 17 ++ repeat (Go 1) 3)%list.
Lemma gl_busy_ok : only gossip_handler gl_busy /\ nextop (lrun gl_busy) 0 = Some (Write "STH_FRAG") /\ holds_write "STH_FRAG_LOCK" (default [] (pr_threads (lrun gl_busy) !! 0)) = true /\
  blocked (lrun gl_busy) 1.
Proof.
  split; [apply only2; [apply frag_handler_ok|apply frag_handler_ok|apply steps_app; apply steps_repeat]|]. split; [vm_compute; reflexivity|]. split; [vm_compute; reflexivity|].
  exists (RLock "STH_FRAG_LOCK"). split; [apply nextop_about; vm_compute; reflexivity|vm_compute; reflexivity].
Qed.

Definition cl_heads : list lev := Start ca_sth :: Start ca_sth :: [Go 0].
Definition ll_precerts : list lev := Start (log_precert false true) :: Start (log_precert false true) :: repeat (Go 0) 6.
Lemma ml_ok : only mon_request ml_delta /\ only (λ ops, mon_request ops \/ exists b, ops = crv_timer b) ml_delta /\ only mon_goroutine ml_period.
Proof.
  split; [apply only2; [apply con_store_ok|apply con_store_ok|apply steps_app; apply steps_repeat]|].
  split; [apply only2; [left; apply con_store_ok|left; apply con_store_ok|apply steps_app; apply steps_repeat]|].
  apply only2; [left; apply sth_store_ok|do 4 right; by exists [], [], [], [], [], [], [], 0, 0, 0, 0, 0|apply steps_app; apply steps_repeat].
Qed.
Lemma cl_ok : only ca_request cl_poi /\ only ca_goroutine cl_issue /\ only (λ ops, ops = ca_sth) cl_heads /\ blocked (lrun cl_heads) 1.
Proof.
  split; [apply only2; [by left|right; left; by exists true|apply steps_repeat]|].
  split; [apply only2; [right; left; by exists 0, [(false, true)]|left; right; left; by exists true|apply steps_app; [apply steps_repeat|apply (steps_repeat 1 1)]]|].
  split; [apply only2; [done|done|apply (steps_repeat 0 1)]|]. exists (Lock "STH_storage_lock"). split; [apply nextop_about; vm_compute; reflexivity|vm_compute; reflexivity].
Qed.
Lemma ll_ok : only log_goroutine ll_publish /\ only log_request ll_precerts /\ nextop (lrun ll_precerts) 0 = Some (Write "byName") /\ blocked (lrun ll_precerts) 1.
Proof.
  split; [apply only2; [by right|left; right; by exists false, false|apply steps_repeat]|].
  split; [apply only2; [left; by exists false, true|left; by exists false, true|apply steps_repeat]|].
  split; [vm_compute; reflexivity|]. exists (Lock "CertPool_lock"). split; [apply nextop_about; vm_compute; reflexivity|vm_compute; reflexivity].
Qed.
