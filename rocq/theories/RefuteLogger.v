(** Counterexamples about loggers and Merkle trees. *)
From Verif Require Import Bytes Hex Json Types Crypto Verify Merkle Cert CertPool CTngExt Clock Logger Toy SpecCert SpecMerkle SpecLogger.
Open Scope string_scope.

Definition toy_cert (subject ski : string) (serial : Z) : cert :=
  mkcert "" "" subject "" subject "localhost:9000" ski "" "" serial "" [] [] "".
Definition toy_logger : lconf toy := mklconf (P:=toy) "localhost:9100" ["localhost:9000"] "k1".
Definition at_min (m : nat) : now := mknow m "t".
Definition all_up (_ : string) : bool := true.

(** Running a history and showing that it is survived. *)
Fixpoint lrun {P : prims} (c : lconf P) (up : string -> bool) (s : lst) (l : list levent) : option (lst * list lout) :=
  match l with
  | [] => Some (s, [])
  | e :: r =>
      let '(s1, o1, ok) := logger_step c up s e in
      if ok then match lrun c up s1 r with Some (s2, o2) => Some (s2, (o1 ++ o2)%list) | None => None end else None
  end.
Lemma lrun_lives {P : prims} (c : lconf P) up s l s' o : lrun c up s l = Some (s', o) -> lives c up s l s' o.
Proof.
  revert s o. induction l as [|e l IH]; intros s o H; cbn in H.
  - injection H as <- <-. constructor.
  - destruct (logger_step c up s e) as [[s1 o1] []] eqn:E; [|done].
    destruct (lrun c up s1 l) as [[s2 o2]|] eqn:E2; [|done]. injection H as <- <-. econstructor; [done|]. by apply IH.
Qed.
Lemma lives_lrun {P : prims} (c : lconf P) up s l s' o : lives c up s l s' o -> lrun c up s l = Some (s', o).
Proof. induction 1 as [|s e s1 o1 l s2 o2 Hs Hl IH]; [done|]. cbn. by rewrite Hs, IH. Qed.

(** C32: a precertificate with the subject of another one is dropped. *)
Definition two_same : list levent :=
  [Submit (toy_cert "s1" "k1" 1); Submit (toy_cert "s1" "k2" 2); Submit (toy_cert "s2" "k3" 3)].
Lemma same_subject_dropped : exists s o, lives toy_logger all_up (logger_init 0 0) two_same s o /\
  length (get_certs (l_pool s)) = 2 /\ get_by_ski (l_pool s) "k2" = None.
Proof. eexists _, _. split; [apply lrun_lives; vm_compute; reflexivity|]. split; vm_compute; reflexivity. Qed.

(** C32: a precertificate arriving while the tree is being sent is in no tree. *)
Definition late_cert : cert := toy_cert "s3" "k3" 3.
Definition late : list levent :=
  [Submit (toy_cert "s1" "k1" 1); Submit (toy_cert "s2" "k2" 2); Publish (at_min 7) (at_min 7) (at_min 7);
   Submit late_cert; EndPeriod;
   Submit (toy_cert "s4" "k4" 4); Submit (toy_cert "s5" "k5" 5); Publish (at_min 8) (at_min 8) (at_min 8); EndPeriod].

Lemma late_lost : exists s o, lives toy_logger all_up (logger_init 0 0) late s o /\ Submit late_cert ∈ late /\
  ~ logged toy_logger all_up (logger_init 0 0) late late_cert.
Proof.
  eexists _, _. split; [apply lrun_lives; vm_compute; reflexivity|]. split; [unfold late; do 3 right; by left|].
  intros (l1 & t & t1 & t2 & l2 & s1 & o1 & E & Hl & Hx). apply lives_lrun in Hl. unfold late in E.
  assert (forall l : list string, c_subject late_cert ∈ l -> bool_decide (c_subject late_cert ∈ l) = true) as Hb by (intros l Hin; by apply bool_decide_eq_true_2).
  apply Hb in Hx. clear Hb.
  do 9 (destruct l1 as [|? l1]; [try done; vm_compute in Hl; injection Hl as <- <-; vm_compute in Hx; done|injection E as <- E]).
  by destruct l1.
Qed.

(** C34: any certificate with the subject of a logged one is accepted. *)
Lemma same_subject_accepted (h : string -> string) : exists certs t x p,
  new_tree h (map c_subject certs) = Some t /\ verify_proof h (c_subject x) (Some p) (mt_root t) = true /\ x ∉ certs.
Proof.
  exists [toy_cert "s1" "k1" 1; toy_cert "s2" "k2" 2].
  eexists _, (toy_cert "s1" "other" 3), (mkproof [h "s2"] 1). split; [reflexivity|]. split.
  - unfold verify_proof. cbn. apply String.eqb_refl.
  - intros H. apply (bool_decide_pack _) in H. vm_compute in H. done.
Qed.

(** C36: minute 59. *)
Definition at_59 : list levent :=
  [Submit (toy_cert "s1" "k1" 1); Submit (toy_cert "s2" "k2" 2); Publish (at_min 59) (at_min 59) (at_min 59); EndPeriod].
Lemma missing_at_0 : exists s o, lives toy_logger all_up (logger_init 0 0) at_59 s o /\
  snd (request_sth s (next_minute 59)) = Answer zero_obj.
Proof. eexists _, _. split; [apply lrun_lives; vm_compute; reflexivity|]. vm_compute. reflexivity. Qed.

(** C36: one certificate. *)
Lemma one_cert_dies : exists s o, lives toy_logger all_up (logger_init 0 0) [Submit (toy_cert "s1" "k1" 1)] s o /\
  snd (logger_step toy_logger all_up s (Publish (at_min 7) (at_min 7) (at_min 7))) = false.
Proof. eexists _, _. split; [apply lrun_lives; vm_compute; reflexivity|]. vm_compute. reflexivity. Qed.

(** C57: two precertificates with the same subject key identifier. *)
Definition same_ski : list levent :=
  [Submit (toy_cert "s1" "k1" 1); Submit (toy_cert "s2" "k1" 2); Submit (toy_cert "s3" "k3" 3)].
Lemma proofs_not_sent : exists s o s' ms, lives toy_logger all_up (logger_init 0 0) same_ski s o /\
  publish toy_logger all_up s (at_min 7) (at_min 7) (at_min 7) = (s', ms, true) /\
  forall p, PoiTo "localhost:9000" (mkpoi p "k3" "localhost:9000" "localhost:9100") ∉ ms.
Proof.
  eexists _, _, _, _. split; [apply lrun_lives; vm_compute; reflexivity|]. split; [vm_compute; reflexivity|].
  intros p H. repeat (apply elem_of_cons in H as [H|H]; [discriminate H|]). by apply elem_of_nil in H.
Qed.

(** C57: a CA that cannot be reached. *)
Lemma unreachable_ca : exists s o, lives toy_logger (λ _, false) (logger_init 0 0) two_same s o /\
  snd (logger_step toy_logger (λ _, false) s (Publish (at_min 7) (at_min 7) (at_min 7))) = false.
Proof. eexists _, _. split; [apply lrun_lives; vm_compute; reflexivity|]. vm_compute. reflexivity. Qed.
