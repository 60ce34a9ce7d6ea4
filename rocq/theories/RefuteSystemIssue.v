(** The small system: a certificate is issued and gets its inclusion proof. *)
From Verif Require Import Bytes Hex Json Types Crypto Verify Bitset Cert CertPool CTngExt Revocation Clock Prog Gossiper Network Overlap System SpecVerify SpecCert SpecGossiper SpecCodec SpecLogger SpecCA SpecNetwork SpecOverlap SpecSystem SpecSystemDetect SpecSystemDeliver SystemIssue.
From Verif Require Logger CA Monitor Client SpecClient.
From Verif Require Import RefuteSystem RefuteLogger RefuteCA Toy.
From Coq Require Import Lia.
Open Scope string_scope.

Definition two_draws : list CA.draw := [toy_draw 3 "c"; toy_draw 4 "d"].
Definition toy_caconf : CA.caconf toy := CA.mkcaconf (P:=toy) ca [lg] ca "k3" "pk".
(** The first of the two certificates. *)
Definition first_cert : cert := Eval vm_compute in default (tbs_certificate (CA.a_root (toy_ca0 0 0)))
  (CA.ca_issued toy_x toy_caconf (CA.ca_init toy_x toy_caconf 0 0 (toy_draw 1 "a") (toy_draw 2 "b")) (CA.CIssue two_draws) !! 0).
Definition ca_start : CA.cast := CA.ca_init toy_x toy_caconf 0 0 (toy_draw 1 "a") (toy_draw 2 "b").
(** Both precertificates arrive, and the logger publishes. *)
Definition until_publish : list wevent := [EIssue ca two_draws; EDeliver 0 11; EDeliver 0 11].
Definition after_publish : world := sys_run (start "12") (until_publish ++ [EPublish lg (at_min 11) (at_min 11) (at_min 11)]).

Lemma issue_start : sy_cas toy_sys !! ca = Some (toy_caconf, sys_cc ca "k3" 0) /\ CA.cac_signer toy_caconf = ca /\
  sy_loggers toy_sys !! lg = Some (Logger.mklconf (P:=toy) lg [ca] "k1") /\ lg ∈ CA.cac_loggers toy_caconf /\ cc_rsa_pubs (sys_cc ca "k3" 0) !! lg = Some "k1" /\ plain_id lg = true /\
  (forall m, rsa_check (p := toy) "k1" m (rsa_sign (p := toy) "k1" m) = true) /\ std_ok toy_x /\ (forall m n, CA.xl_name toy_x m = CA.xl_name toy_x n -> m = n) /\ (forall m, h_sha256 toy m <> "") /\
  w_cas (start "12") !! ca = Some ca_start /\ NoDup (map (λ d, h_sha256 toy (CA.d_pub d)) two_draws) /\ first_cert ∈ CA.ca_issued toy_x toy_caconf ca_start (CA.CIssue two_draws) /\
  get_certs (CA.a_pool ca_start) = [].
Proof.
  split_and!; try reflexivity.
  - by left.
  - intros m. cbn. apply String.eqb_refl.
  - exact toy_std.
  - done.
  - done.
  - apply (bool_decide_unpack _). vm_compute. reflexivity.
  - cbn. by left.
Qed.

Lemma issue_arrivals : w_mail (sys_run (start "12") [EIssue ca two_draws]) !! 0 = Some (Precert lg first_cert) /\
  (exists s, w_loggers (sys_run (start "12") [EIssue ca two_draws]) !! lg = Some s /\ get_certs (Logger.l_pool s) = []) /\
  (exists sl d, w_loggers (sys_run (start "12") until_publish) !! lg = Some sl /\ get_certs (Logger.l_pool sl) = [tbs_certificate first_cert; d] /\ c_ski d <> c_ski first_cert /\ c_issuer_cn d = ca /\ c_issuer_cn first_cert = ca) /\
  is_Some (w_cas (sys_run (start "12") until_publish) !! ca).
Proof.
  split; [vm_compute; reflexivity|]. split; [eexists; split; [vm_compute; reflexivity|reflexivity]|]. split; [|vm_compute; eexists; reflexivity].
  eexists _, _. split; [vm_compute; reflexivity|]. split; [vm_compute; reflexivity|]. split; [vm_compute; discriminate|]. split; reflexivity.
Qed.

Lemma issue_delivered : exists g p p', w_mail after_publish = [Head ca g; Proof_ ca p; Proof_ ca p'] /\ poi_ski p = c_ski first_cert /\ poi_ski p' <> c_ski first_cert /\
  exists s crt, w_cas (wrun toy_z toy_x toy_sys after_publish [EDeliver 0 11]) !! ca = Some s /\ get_by_ski (CA.a_pool s) (c_ski first_cert) = Some crt /\
    SpecClient.relied_on crt = [] /\ ext_ok (mkctng (cert_rid crt) [mkloginfo g p]).
Proof.
  eexists _, _, _. split; [vm_compute; reflexivity|]. split; [vm_compute; reflexivity|]. split; [vm_compute; discriminate|]. eexists _, _. split; [vm_compute; reflexivity|]. split; [vm_compute; reflexivity|].
  split; [vm_compute; reflexivity|]. split; [vm_compute; split; discriminate|]. split.
  - constructor; [|constructor]. intros q H. apply (inj Some) in H as <-. vm_compute. discriminate.
  - vm_compute. reflexivity.
Qed.

(** The theorem applied to this run. *)
Lemma none_in {A} (y : A) (Q : Prop) : y ∈ @nil A -> Q.
Proof. intros H. by apply elem_of_nil in H. Qed.
Lemma two_unique (u v : cert) : c_ski v <> c_ski u -> ski_unique [u; v].
Proof.
  intros Hn i j y y' Hi Hj E _. destruct i as [|[|i]]; [| |done]; (destruct j as [|[|j]]; [| |done]); try done; injection Hi as <-; injection Hj as <-; [by symmetry in E|done].
Qed.
Lemma pick_head u v (g g0 : gobj) (p p' : poi) : Head u g0 ∈ [Head v g; Proof_ v p; Proof_ v p'] -> g0 = g.
Proof. rewrite !elem_of_cons, elem_of_nil. intros [[= _ ->]|[?|[?|[]]]]; done. Qed.
Lemma pick_proof u v (g : gobj) (p p' p0 : poi) k : poi_ski p0 = k -> poi_ski p' <> k -> Proof_ u p0 ∈ [Head v g; Proof_ v p; Proof_ v p'] -> p0 = p.
Proof. intros Hk Hn. rewrite !elem_of_cons, elem_of_nil. intros [?|[[= _ ->]|[[= _ ->]|[]]]]; done. Qed.
Lemma after_head W g r m : w_mail W = Head ca g :: r -> w_mail (wstep toy_z toy_x toy_sys W (EDeliver 0 m)) = r.
Proof. intros E. cbn [wstep]. rewrite E. cbn [lookup list_lookup receive]. destruct (sy_cas toy_sys !! ca) as [[? ?]|]; [|reflexivity]. destruct (w_cas _ !! ca); reflexivity. Qed.
Lemma nothing_arrives W y : arrives toy_z toy_x toy_sys W [] y -> False.
Proof. intros (l1 & ? & ? & ? & E & _). by destruct l1. Qed.
Lemma one_issuer (u v w : cert) k (m : gmap string CA.cast) : c_issuer_cn u = k -> c_issuer_cn v = k -> is_Some (m !! k) -> w ∈ [u; v] -> is_Some (m !! c_issuer_cn w).
Proof. intros E1 E2 H. rewrite !elem_of_cons, elem_of_nil. intros [->|[->|[]]]; by rewrite ?E1, ?E2. Qed.
Lemma no_period rs m m' : ECaPeriod ca rs m' ∉ ([] ++ [EDeliver 0 m] ++ [] ++ [])%list.
Proof. intros H%elem_of_list_singleton. discriminate. Qed.
Lemma some_same {A} (o : option A) a b : o = Some a -> o = Some b -> a = b.
Proof. congruence. Qed.

Lemma issue_applies : exists g p s' final, w_cas (wrun toy_z toy_x toy_sys after_publish [EDeliver 0 11; EDeliver 0 11]) !! ca = Some s' /\
  final ∈ CA.sign_all toy_x toy_caconf s' /\ same_subject final first_cert /\ SpecClient.relied_on final = [mkloginfo g p] /\ proves_inclusion (P := toy) final (mkloginfo g p).
Proof.
  destruct issue_start as (C1 & C2 & C3 & C4 & C5 & C6 & C7 & C8 & C9 & C10 & C11 & C12 & C13 & C14).
  destruct issue_arrivals as (A1 & (sb & A2 & A3) & (sl & d & A4 & A5 & A6 & A7 & A8) & A9).
  destruct issue_delivered as (g & p & p' & D1 & D2 & D3 & sc & crt1 & D4 & D5 & D6 & D7).
  assert (lg <> "") as Cn by discriminate.
  assert (ca ∈ [ca]) as Cb by (by left).
  destruct (issued_included toy_z toy_x toy_sys "12" "s" "t" (λ _, (0, 0)%Z) (λ _, (0%Z, 0%Z, toy_draw 1 "a", toy_draw 2 "b")) ca toy_caconf (sys_cc ca "k3" 0) lg
    (Logger.mklconf (P:=toy) lg [ca] "k1") "k1" C1 C2 C3 C4 Cb eq_refl C5 Cn C6 C7 C8 C9 C10 [] two_draws ca_start first_cert C11 C12 C13) as [_ H].
  { intros y Hy. rewrite C14 in Hy. exact (none_in _ _ Hy). }
  destruct (H [] 0 11 [EDeliver 0 11] (at_min 11) (at_min 11) (at_min 11) sl A1) as (g0 & p0 & sl' & _ & _ & _ & _ & _ & Hk & _ & Hg & Hp & K).
  - intros s y Hs Hy. rewrite <- (some_same _ _ _ A2 Hs), A3 in Hy. exact (none_in _ _ Hy).
  - intros E%elem_of_list_singleton. discriminate.
  - exact A4.
  - rewrite A5. cbn. lia.
  - rewrite A5. exact (two_unique (tbs_certificate first_cert) d A6).
  - rewrite A5. intros y Hy _. exact (one_issuer (tbs_certificate first_cert) d _ _ _ A8 A7 A9 Hy).
  - clear H. change (Head ca g0 ∈ w_mail after_publish) in Hg. change (Proof_ ca p0 ∈ w_mail after_publish) in Hp. rewrite D1 in Hg, Hp.
    apply pick_head in Hg. subst g0. apply (pick_proof _ _ _ _ _ _ _ Hk D3) in Hp. subst p0.
    destruct (K [] 0 11 [] 0 11) as (s & crt1' & E1 & E2 & E3 & F).
    + intros rs m'. apply no_period.
    + change (w_mail after_publish !! 0 = Some (Head ca g)). rewrite D1. reflexivity.
    + change (w_mail (wstep toy_z toy_x toy_sys after_publish (EDeliver 0 11)) !! 0 = Some (Proof_ ca p)). rewrite (after_head _ _ _ _ D1). reflexivity.
    + intros ds' Hx. exact (none_in _ _ Hx).
    + intros g' Hx. destruct (nothing_arrives _ _ Hx).
    + change (w_cas (wrun toy_z toy_x toy_sys after_publish [EDeliver 0 11]) !! ca = Some s) in E1.
      rewrite <- (some_same _ _ _ D4 E1) in E2. rewrite <- (some_same _ _ _ D5 E2), D6 in F. destruct F as (s' & crt2 & final & F1 & F2 & F3 & F4 & F5 & _ & F6 & F7 & F8).
      * intros j Hj. exact (none_in _ _ Hj).
      * exact D7.
      * exists g, p, s', final. split; [exact F1|]. split; [exact F4|]. split; [exact F5|]. split; [rewrite F7, F3; reflexivity|exact F8].
Qed.

(* ---------------------------------------------------------------- *)
(** * Two CAs: both number the subjects of their certificates from one *)

Definition ca2 := "localhost:9001".
Definition two_cas : sysconf toy := mksys ∅
  {[ lg := Logger.mklconf (P:=toy) lg [ca; ca2] "k1" ]}
  {[ ca := (toy_caconf, sys_cc ca "k3" 0); ca2 := (CA.mkcaconf (P:=toy) ca2 [lg] ca2 "k4" "pk2", sys_cc ca2 "k4" 0) ]} ∅ ∅.
Definition two_start : world := world_init toy_x two_cas "12" "s" "t" (λ _, (0, 0)%Z) (λ _, (0%Z, 0%Z, toy_draw 1 "a", toy_draw 2 "b")).
(** Both issue two certificates for different keys; all messages arrive in order, the tree heads before the proofs. *)
Definition two_issue : list wevent := [EIssue ca two_draws; EIssue ca2 [toy_draw 5 "e"; toy_draw 6 "f"]; EDeliver 0 11; EDeliver 0 11; EDeliver 0 11; EDeliver 0 11;
  EPublish lg (at_min 11) (at_min 11) (at_min 11); EDeliver 0 11; EDeliver 0 11; EDeliver 0 11; EDeliver 0 11].

Lemma two_cas_lost : w_mail (wrun toy_z toy_x two_cas two_start two_issue) = [] /\ is_Some (w_loggers (wrun toy_z toy_x two_cas two_start two_issue) !! lg) /\
  (exists s1, w_cas (wrun toy_z toy_x two_cas two_start two_issue) !! ca = Some s1 /\ map (λ f, length (SpecClient.relied_on f)) (CA.sign_all toy_x toy_caconf s1) = [1; 1]) /\
  (exists s2, w_cas (wrun toy_z toy_x two_cas two_start two_issue) !! ca2 = Some s2 /\
     map (λ f, (c_subject_cn f, c_pub f, SpecClient.relied_on f)) (CA.sign_all toy_x (CA.mkcaconf (P:=toy) ca2 [lg] ca2 "k4" "pk2") s2) = [("Testing Dummy 1", "e", []); ("Testing Dummy 2", "f", [])]).
Proof.
  split; [vm_compute; reflexivity|]. split; [vm_compute; eexists; reflexivity|].
  split; eexists; (split; [vm_compute; reflexivity|vm_compute; reflexivity]).
Qed.
