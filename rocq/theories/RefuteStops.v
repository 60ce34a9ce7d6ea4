(** Counterexamples and examples for C117, C118 and C119. *)
From Verif Require Import Bytes Hex Json Types Crypto Verify Prog Gossiper SpecVerify SpecGossiper SpecStops Toy RefuteGossiper.
From Verif Require Import Cert CertPool Logger SpecCert SpecLogger RefuteLogger.
Open Scope string_scope.

(** A gossiper of a deployment with one logger and one CA. *)
Definition small : gconf toy := mkgconf (toy_cc "g1" 1) ["g2"; "g3"] "m1" 1 1 10 true.
Definition sth_8 : gobj := toy_init STH_INIT "08" "k1" log1 "a" "y".
(** Both statements of minute 7 arrive at second 11; in minute 8 only one arrives. *)
Definition two_minutes : list gevent := [Recv 0 sth_a; Recv 0 rev_a; Period; Tick "08" "22" "t"; Recv 0 sth_8; Period].

Lemma stale_time : exists (P : prims) (cfg : gconf P) a b d l e,
  let s := s_st (steps cfg (init_gsys a b d) l) in
  t_log s !! 8%Z = Some e /\ Z.of_nat (e_sth_init e + e_rev_init e + e_acc_init e) <> (gc_total_logger cfg + gc_total_ca cfg)%Z /\
  e_conv_init e <> "" /\ a <> "08" /\ (forall sec st, Tick "08" sec st ∈ l -> sec <> e_conv_init e).
Proof.
  eexists toy, small, "07", "11", "t", two_minutes, _. cbn zeta. split; [vm_compute; reflexivity|]. split_and!; [by vm_compute|done|done|].
  intros sec st H. unfold two_minutes in H. repeat (apply elem_of_cons in H as [H|H]; [try done; by injection H as -> ->|]). by apply elem_of_nil in H.
Qed.

(** An hour later the record of a minute is replaced. *)
Definition next_hour : list gevent := [Recv 0 sth_a; Recv 0 rev_a; Period; Tick "07" "22" "t"; Recv 0 sth_a; Period].
Lemma replaced : exists (P : prims) (cfg : gconf P) a b d l1 l2 e e',
  let at_ l := t_log (s_st (steps cfg (init_gsys a b d) l)) in
  at_ l1 !! 7%Z = Some e /\ e_rev_init e = 1 /\ at_ (l1 ++ l2)%list !! 7%Z = Some e' /\ e_rev_init e' = 0.
Proof.
  eexists toy, small, "07", "11", "t", (take 3 next_hour), (drop 3 next_hour), _, _. cbn zeta.
  split; [vm_compute; reflexivity|]. split; [reflexivity|]. split; [vm_compute; reflexivity|]. reflexivity.
Qed.

Lemma small_record : exists e, t_log (s_st (steps small (init_gsys "07" "11" "t") (take 3 two_minutes))) !! 7%Z = Some e /\
  e_sth_init e = 1 /\ e_rev_init e = 1 /\ e_conv_init e = "11".
Proof. eexists. split; [vm_compute; reflexivity|]. by split_and!. Qed.

Lemma small_stops : exists s o, lives toy_logger (λ ca, String.eqb ca "nobody") (logger_init 0 0) two_same s o /\
  length (first_copies (map tbs_certificate (this_period two_same))) = 2 /\ ski_unique (first_copies (map tbs_certificate (this_period two_same))) /\
  out_of_reach (λ ca, String.eqb ca "nobody") (first_copies (map tbs_certificate (this_period two_same))).
Proof.
  eexists _, _. split; [repeat (econstructor; [vm_compute; reflexivity|]); constructor|]. split; [vm_compute; reflexivity|]. split.
  - unfold ski_unique. set (l := first_copies _). vm_compute in l. subst l.
    intros [|[|i]] [|[|j]] x y; cbn; try done; intros [= <-] [= <-]; done.
  - eexists. set (l := first_copies _). vm_compute in l. subst l. split; [by left|]. split; [done|]. vm_compute. reflexivity.
Qed.
