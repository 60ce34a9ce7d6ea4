(** The functions of LockUse.v keep to the discipline of LocksFacts.v. *)
From Verif Require Import Bytes Types Locks SpecLocks LocksFacts LockUse.
Open Scope string_scope.

Lemma only_mono (P Q : list op -> Prop) l : (forall ops, P ops -> Q ops) -> only P l -> only Q l.
Proof. intros H Hl ops Ho. apply H, Hl, Ho. Qed.

(* ---------------------------------------------------------------- *)
(** * The gossiper *)

Definition g_rank (k : string) : nat := match k with String "R" _ => 0 | String "S" _ => 1 | _ => 2 end.
Definition g_prot (m : string) : protection := By (lock_of m).

Lemma gossip_handler_disciplined ops : gossip_handler ops -> disciplined g_prot g_rank [] ops = true.
Proof.
  intros (cs & Hc & ->). apply disciplined_concat. intros c Hi. specialize (Hc c Hi). clear Hi.
  destruct c as [v| |p| | |s|k v p d b|f r|k p|f|k|k| |n1 n2 n3 g|]; try done.
  - by destruct v.
  - by destruct p.
  - by destruct s.
  - destruct v; [|done]. destruct k as [[f| |f]|f|]; try destruct f; destruct p, d, b; reflexivity.
  - destruct f, r; reflexivity.
  - destruct k as [[f| |f]|f|]; try destruct f; destruct p; reflexivity.
  - by destruct f.
  - destruct k as [[f| |f]|f|]; try destruct f; reflexivity.
  - destruct k as [f| |f]; try destruct f; reflexivity.
Qed.

Theorem gossiper_locks l : only gossip_handler l ->
  pr_dead (lrun l) = false /\ ~ deadlock (lrun l) /\ (forall m, ~ collision (lrun l) m) /\
  (exists l', only_steps l' /\ pr_dead (lrun (l ++ l')) = false /\ all_done (lrun (l ++ l'))).
Proof.
  intros Hl. destruct (discipline_safe g_prot g_rank l (only_mono _ _ l gossip_handler_disciplined Hl)) as (H1 & H2 & H3 & _ & H4).
  split; [exact H1|]. split; [exact H2|]. split; [|exact H4]. intros m. by apply H3.
Qed.
Theorem gossiper_critical l m i j ops : only gossip_handler l -> i <> j -> pr_threads (lrun l) !! i = Some ops ->
  (holds_write (m ++ "_LOCK") ops = true -> ~ about_to (lrun l) j (Read m) /\ ~ about_to (lrun l) j (Write m)) /\
  (holds_read (m ++ "_LOCK") ops = true -> ~ about_to (lrun l) j (Write m)).
Proof.
  intros Hl Hij Hi. destruct (discipline_safe g_prot g_rank l (only_mono _ _ l gossip_handler_disciplined Hl)) as (_ & _ & _ & H & _).
  specialize (fun o => H m (m ++ "_LOCK") i j ops o eq_refl Hij Hi). split; intros Hh; [split|]; apply H; auto.
Qed.

(* ---------------------------------------------------------------- *)
(** * The monitor *)

Definition m_prot (m : string) : protection :=
  if bool_decide (m ∈ ["Storage_CRV"; "Storage_CONFLICT_POM_DELTA"; "Storage_ACCUSATION_POM_DELTA"]) then Unchecked
  else By (String.substring 8 (String.length m - 8) m ++ "_lock").
Definition no_rank (k : string) : nat := 0.

Lemma mon_store_disciplined k : disciplined m_prot no_rank [] (mon_store k) = true.
Proof. destruct k as [[f| |f]|f|]; try destruct f; reflexivity. Qed.
Lemma mon_request_disciplined ops : mon_request ops -> disciplined m_prot no_rank [] ops = true.
Proof.
  intros [(k & d & ->)|(ca & k & ->)].
  - unfold mon_handler. apply disciplined_app; [destruct k as [[f| |f]|f|]; try destruct f; reflexivity|]. destruct d; [done|]. apply mon_store_disciplined.
  - unfold mon_answer. apply disciplined_app; [by destruct ca|]. destruct k as [[f| |f]|f|]; try done; apply mon_store_disciplined.
Qed.
Lemma crv_timer_disciplined b : disciplined m_prot no_rank [] (crv_timer b) = true.
Proof. by destruct b. Qed.

Theorem monitor_requests l m : only (λ ops, mon_request ops \/ exists b, ops = crv_timer b) l ->
  m ∈ ["Storage_TEMP"; "Storage_CONFLICT_POM"; "Storage_ACCUSATION_POM"; "Storage_STH_FULL"; "Storage_REV_FULL"] -> ~ collision (lrun l) m.
Proof.
  intros Hl Hm. destruct (discipline_safe m_prot no_rank l) as (_ & _ & H & _).
  { apply (only_mono _ _ l) with (2 := Hl). intros ops [Ho|[b ->]]; [by apply mon_request_disciplined|apply crv_timer_disciplined]. }
  apply H. repeat (apply elem_of_cons in Hm as [->|Hm]; [done|]). by apply elem_of_nil in Hm.
Qed.

(** What only accesses maps is disciplined if no map is checked; everything disciplined is. *)
Definition free (m : string) : protection := Unchecked.
Lemma disciplined_free G rank ops : forall H, disciplined G rank H ops = true -> disciplined free rank H ops = true.
Proof.
  induction ops as [|o ops IH]; intros H; [done|]. destruct o; cbn; try done; rewrite ?andb_true_iff; try (intros [-> ?]; split; [done|]; by apply IH).
  all: intros [_ ?]; by apply IH.
Qed.
Definition is_access (o : op) : bool := match o with Read _ | Write _ => true | _ => false end.
Lemma access_disciplined rank ops : forallb is_access ops = true -> disciplined free rank [] ops = true.
Proof. induction ops as [|o ops IH]; [done|]. destruct o; cbn; try discriminate; exact IH. Qed.
Lemma access_app a b : forallb is_access (a ++ b) = forallb is_access a && forallb is_access b.
Proof. apply forallb_app. Qed.
Lemma access_concat {A} (f : A -> list op) l : (forall a, forallb is_access (f a) = true) -> forallb is_access (concat (map f l)) = true.
Proof. intros Hf. induction l as [|a l IH]; [done|]. cbn. rewrite forallb_app, Hf, IH. done. Qed.
Lemma access_repeat o n : is_access o = true -> forallb is_access (repeat o n) = true.
Proof. intros Ho. induction n as [|n IH]; [done|]. cbn. by rewrite Ho, IH. Qed.
Lemma access_ranging m l : forallb is_access (ranging m l) = true.
Proof. cbn. apply access_concat. by intros []. Qed.
Lemma access_cleaning m l : forallb is_access (cleaning m l) = true.
Proof. cbn. apply access_concat. by intros []. Qed.
Lemma access_check b : forallb is_access (mon_check b) = true.
Proof. by destruct b. Qed.

Lemma mon_goroutine_disciplined ops : mon_goroutine ops -> disciplined free no_rank [] ops = true.
Proof.
  intros [H|[[b ->]|[(b1 & b2 & b3 & ->)|[[l ->]|(c1 & c2 & w1 & w2 & w3 & w4 & w5 & n1 & n2 & n3 & n4 & n5 & ->)]]]].
  - by apply disciplined_free with m_prot, mon_request_disciplined.
  - apply disciplined_free with m_prot, crv_timer_disciplined.
  - by destruct b1, b2, b3.
  - apply access_disciplined. apply access_concat. apply access_check.
  - apply access_disciplined. unfold mon_period. by rewrite !access_app, !access_cleaning, !access_ranging, !access_repeat.
Qed.
Theorem monitor_locks l : only mon_goroutine l ->
  pr_dead (lrun l) = false /\ ~ deadlock (lrun l) /\ (exists l', only_steps l' /\ pr_dead (lrun (l ++ l')) = false /\ all_done (lrun (l ++ l'))).
Proof.
  intros Hl. destruct (discipline_safe free no_rank l (only_mono _ _ l mon_goroutine_disciplined Hl)) as (H1 & H2 & _ & _ & H4). auto.
Qed.

(* ---------------------------------------------------------------- *)
(** * The CA and the logger *)

Lemma add_cert_access b1 b2 : forallb is_access (add_cert b1 b2) = true.
Proof. by destruct b1, b2. Qed.

Lemma ca_goroutine_disciplined ops : ca_goroutine ops -> disciplined free no_rank [] ops = true.
Proof.
  intros [[->|[[b ->]|(b1 & b2 & b3 & ->)]]|[(n & l & ->)| ->]]; try done.
  - by destruct b.
  - by destruct b1, b2, b3.
  - apply access_disciplined. unfold ca_begin. rewrite access_app, access_ranging, access_concat; [done|]. intros []. apply add_cert_access.
Qed.
Theorem ca_locks l : only ca_goroutine l ->
  pr_dead (lrun l) = false /\ ~ deadlock (lrun l) /\ (exists l', only_steps l' /\ pr_dead (lrun (l ++ l')) = false /\ all_done (lrun (l ++ l'))).
Proof.
  intros Hl. destruct (discipline_safe free no_rank l (only_mono _ _ l ca_goroutine_disciplined Hl)) as (H1 & H2 & _ & _ & H4). auto.
Qed.
Definition ca_prot (m : string) : protection := if bool_decide (m = "STH_storage") then Unchecked else ReadOnly.
Lemma ca_request_disciplined ops : ca_request ops -> disciplined ca_prot no_rank [] ops = true.
Proof. intros [->|[[b ->]|(b1 & b2 & b3 & ->)]]; [done|by destruct b|by destruct b1, b2, b3]. Qed.
Theorem ca_requests l m : only ca_request l -> m <> "STH_storage" -> ~ collision (lrun l) m.
Proof.
  intros Hl Hm. destruct (discipline_safe ca_prot no_rank l (only_mono _ _ l ca_request_disciplined Hl)) as (_ & _ & H & _). apply H. unfold ca_prot. by rewrite bool_decide_eq_false_2.
Qed.
(** The heads alone: all handlers that store one hold the lock. *)
Definition ca_sth_prot (m : string) : protection := By (m ++ "_lock").
Theorem ca_heads l m : only (λ ops, ops = ca_sth) l -> ~ collision (lrun l) m.
Proof.
  intros Hl. destruct (discipline_safe ca_sth_prot no_rank l) as (_ & _ & H & _); [|by apply H]. apply (only_mono _ _ l) with (2 := Hl). by intros ops ->.
Qed.

Definition log_prot (m : string) : protection := if bool_decide (m ∈ ["byName"; "bySubjectKeyId"]) then By "CertPool_lock" else By "Request_Count_lock".
Lemma log_request_disciplined ops : log_request ops -> disciplined log_prot no_rank [] ops = true.
Proof. intros [(b1 & b2 & ->)|(b1 & b2 & ->)]; by destruct b1, b2. Qed.
Theorem logger_requests l m : only log_request l -> ~ collision (lrun l) m.
Proof.
  intros Hl. destruct (discipline_safe log_prot no_rank l (only_mono _ _ l log_request_disciplined Hl)) as (_ & _ & H & _). apply H. unfold log_prot. by destruct (bool_decide _).
Qed.
Lemma log_goroutine_disciplined ops : log_goroutine ops -> disciplined free no_rank [] ops = true.
Proof. intros [[(b1 & b2 & ->)|(b1 & b2 & ->)]| ->]; [by destruct b1, b2|by destruct b1, b2|done]. Qed.
Theorem logger_locks l : only log_goroutine l ->
  pr_dead (lrun l) = false /\ ~ deadlock (lrun l) /\ (exists l', only_steps l' /\ pr_dead (lrun (l ++ l')) = false /\ all_done (lrun (l ++ l'))).
Proof.
  intros Hl. destruct (discipline_safe free no_rank l (only_mono _ _ l log_goroutine_disciplined Hl)) as (H1 & H2 & _ & _ & H4). auto.
Qed.
(** Pre-certificates are added without collision, also while the logger publishes. *)
Definition log_pool_prot (m : string) : protection := if bool_decide (m ∈ ["byName"; "bySubjectKeyId"]) then By "CertPool_lock" else Unchecked.
Theorem logger_pool l m : only log_goroutine l -> m ∈ ["byName"; "bySubjectKeyId"] -> ~ collision (lrun l) m.
Proof.
  intros Hl Hm. destruct (discipline_safe log_pool_prot no_rank l) as (_ & _ & H & _).
  { apply (only_mono _ _ l) with (2 := Hl). intros ops [[(b1 & b2 & ->)|(b1 & b2 & ->)]| ->]; [by destruct b1, b2|by destruct b1, b2|done]. }
  apply H. unfold log_pool_prot. by rewrite bool_decide_eq_true_2.
Qed.
