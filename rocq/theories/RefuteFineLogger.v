(** Histories of a logger whose tasks interleave. *)
From Verif Require Import Bytes Types Crypto Verify Merkle Cert CertPool CTngExt Clock Logger SpecVerify SpecLogger FineLogger SpecFineLogger Toy RefuteLogger.
Open Scope string_scope.

Definition lstart : flog := fl_init 0 0.
Definition turn (n : nat) : lfev := FRun n (at_min 7) all_up.
Definition two_in : list lfev := [FSubmit (toy_cert "s1" "k1" 1); FSubmit (toy_cert "s2" "k2" 2)].
Definition lst_of (l : list lfev) : flog := match lfrun toy_logger lstart l with Some (y, _) => y | None => lstart end.
Definition lout_of (l : list lfev) : list lout := match lfrun toy_logger lstart l with Some (_, o) => o | None => [] end.
Definition alive (l : list lfev) : bool := match lfrun toy_logger lstart l with Some _ => true | None => false end.
Lemma alive_run l : alive l = true -> lfrun toy_logger lstart l = Some (lst_of l, lout_of l).
Proof. unfold alive, lst_of, lout_of. destruct (lfrun _ _ _) as [[y o]|]; done. Qed.

(** A task among a submission and a request. *)
Definition amid : list lfev :=
  (repeat (turn 0) 3 ++ [FSubmit (toy_cert "s3" "k3" 3); turn 0; FAsk 8] ++ repeat (turn 0) 8)%list.
Definition whole : list lfev := (two_in ++ FTick :: amid)%list.

Lemma whole_lives : lfrun toy_logger lstart whole = Some (lst_of whole, lout_of whole).
Proof. apply alive_run. vm_compute. reflexivity. Qed.
Lemma two_lives : lfrun toy_logger lstart two_in = Some (lst_of two_in, lout_of two_in).
Proof. apply alive_run. vm_compute. reflexivity. Qed.
Lemma amid_lives : lfrun toy_logger (lst_of two_in) (FTick :: amid) = Some (lst_of whole, lout_of whole).
Proof.
  assert (H : match lfrun toy_logger (lst_of two_in) (FTick :: amid) with Some (y, o) => lfrun toy_logger lstart whole = Some (y, o) | None => False end).
  { vm_compute. reflexivity. }
  destruct (lfrun toy_logger (lst_of two_in) (FTick :: amid)) as [[y o]|]; [|done]. rewrite whole_lives in H. congruence.
Qed.
Definition count_out (o : list lout) : nat * nat * nat :=
  (length (List.filter (λ x, match x with LMsg (SthTo _ _) => true | _ => false end) o),
   length (List.filter (λ x, match x with LMsg (PoiTo _ _) => true | _ => false end) o),
   length (List.filter (λ x, match x with LReply (Answer g) => negb (is_empty (g_p1 g)) | _ => false end) o)).
Lemma whole_shows : count_out (lout_of whole) = (1, 2, 1) /\ fl_go (lst_of whole) = [] /\ fl_go (lst_of two_in) = [].
Proof. vm_compute. done. Qed.
Lemma whole_agrees : key_ids_agree (get_certs (l_pool (fl_st (lst_of two_in))) ++ arrivals amid) /\ FTick ∉ amid /\
  length (get_certs (l_pool (fl_st (lst_of two_in)))) = 2 /\ (forall n t up ca, FRun n t up ∈ amid -> up ca = true).
Proof.
  split_and!.
  - intros x y Hx Hy. vm_compute in Hx, Hy. repeat (apply elem_of_cons in Hx as [-> | Hx]); [..|by apply elem_of_nil in Hx];
      repeat (apply elem_of_cons in Hy as [-> | Hy]); try (by apply elem_of_nil in Hy); vm_compute; done.
  - unfold amid. cbn. set_solver.
  - vm_compute. reflexivity.
  - intros n t up ca H. unfold amid, turn in H. cbn in H. set_solver.
Qed.

(** Two tasks: the second empties the pool before the first has sent its proofs. *)
Definition fatal : list lfev := (two_in ++ [FTick; FTick] ++ repeat (turn 0) 7 ++ repeat (turn 1) 12 ++ [turn 0])%list.
Lemma fatal_dies : lfrun toy_logger lstart (take 23 fatal) = Some (lst_of (take 23 fatal), lout_of (take 23 fatal)) /\ lfrun toy_logger lstart fatal = None /\
  fatal = (take 23 fatal ++ [turn 0])%list.
Proof. split_and!; [apply alive_run; vm_compute; reflexivity|vm_compute; reflexivity|reflexivity]. Qed.
Lemma fatal_well : forall n t up ca, FRun n t up ∈ fatal -> up ca = true.
Proof. intros n t up ca H. unfold fatal, two_in, turn in H. cbn in H. set_solver. Qed.

(** Two tasks of one minute store different heads for the next one. *)
Definition twice : list lfev := (two_in ++ [FTick] ++ repeat (turn 0) 4 ++ [FAsk 8; FSubmit (toy_cert "s3" "k3" 3); FTick] ++ repeat (turn 1) 4 ++ [FAsk 8])%list.
Definition answers_of (o : list lout) : list gobj := flat_map (λ x, match x with LReply (Answer g) => [g] | _ => [] end) o.
Definition differ (l : list gobj) : bool :=
  match l with [g1; g2] => bool_decide (get_id g1 = get_id g2) && negb (String.eqb (covered g1) (covered g2)) | _ => false end.
Lemma differ_two l : differ l = true -> exists g1 g2, l = [g1; g2] /\ get_id g1 = get_id g2 /\ covered g1 <> covered g2.
Proof.
  destruct l as [|g1 [|g2 [|]]]; try done. cbn [differ]. intros H. apply andb_true_iff in H as [H1 H2]. exists g1, g2. split; [done|].
  apply bool_decide_eq_true in H1. apply negb_true_iff, String.eqb_neq in H2. done.
Qed.
Lemma twice_differs : exists y o g1 g2, lfrun toy_logger lstart twice = Some (y, o) /\ answers_of o = [g1; g2] /\ get_id g1 = get_id g2 /\ covered g1 <> covered g2.
Proof.
  destruct (differ_two (answers_of (lout_of twice))) as (g1 & g2 & H); [vm_compute; reflexivity|].
  exists (lst_of twice), (lout_of twice), g1, g2. split; [apply alive_run; vm_compute; reflexivity|exact H].
Qed.

(** A submission before the task, and the last step of the task. *)
Definition one_in : list lfev := [FSubmit (toy_cert "s1" "k1" 1)].
Lemma before_shown : lfrun toy_logger lstart one_in = Some (lst_of one_in, lout_of one_in) /\ fl_go (lst_of one_in) = [] /\
  (forall d, d ∈ get_certs (l_pool (fl_st (lst_of one_in))) -> c_subject d <> c_subject (tbs_certificate (toy_cert "s2" "k2" 2))) /\ c_ski (tbs_certificate (toy_cert "s2" "k2" 2)) <> "" /\
  lfrun toy_logger (lst_of one_in) [FSubmit (toy_cert "s2" "k2" 2)] = Some (lst_of two_in, []).
Proof.
  split_and!; [apply alive_run; vm_compute; reflexivity|vm_compute; reflexivity| |vm_compute; done|vm_compute; reflexivity].
  intros d Hd. vm_compute in Hd. apply elem_of_list_singleton in Hd as ->. vm_compute. done.
Qed.
Definition all_but_end : list lfev := take 16 whole.
Lemma end_shown : FSubmit (toy_cert "s3" "k3" 3) ∈ all_but_end /\ lfrun toy_logger (lst_of all_but_end) [turn 0] = Some (lst_of whole, []) /\
  map c_ski (get_certs (l_pool (fl_st (lst_of all_but_end)))) = ["k1"; "k2"; "k3"] /\ length (fl_go (lst_of whole)) < length (fl_go (lst_of all_but_end)).
Proof. split_and!; [unfold all_but_end, whole, two_in, amid; cbn; set_solver|vm_compute; reflexivity|vm_compute; reflexivity|vm_compute; lia]. Qed.
