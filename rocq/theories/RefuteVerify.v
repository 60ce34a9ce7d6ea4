(** Counterexamples for definition/Verify.go, with ideal signatures. *)
From Verif Require Import Bytes Hex Json Types Crypto Verify Prog Gossiper SpecCodec SpecVerify Toy CodecFacts CryptoFacts VerifyFacts ToyFacts.
From Coq Require Import Lia.
Open Scope string_scope.

(** A FULL object aggregated from one gossiper's fragment. *)
Definition lone_full : gobj :=
  mkobj CTNG_APPLICATION "07" STH_FULL "" ["g1"]
    "{""sign"":""73"", ""ids"":[""g1""]}" "" "t" "bls" "localhost:9100" "x" "y".
Definition lone_B : list (Z * string) := [(1%Z, "localhost:9100xy")].

Lemma lone_full_accepted : verify (ideal_cc [] lone_B "g1") lone_full = Accept.
Proof. vm_compute. reflexivity. Qed.

Lemma toy_bls_inj id1 id2 k : toy_bls !! id1 = Some k -> toy_bls !! id2 = Some k -> id1 = id2.
Proof.
  unfold toy_bls. intros H1 H2.
  rewrite !lookup_insert_Some, lookup_singleton_Some in H1.
  rewrite !lookup_insert_Some, lookup_singleton_Some in H2.
  naive_solver congruence.
Qed.

Lemma full_threshold_refuted : exists (P : prims) (c : cconf P) said g,
  bls_unforgeable c said /\ is_full g /\ verify c g = Accept /\
  ~ signed_by_at_least c said (cc_threshold c) (covered g).
Proof.
  exists (ideal [] lone_B), (ideal_cc [] lone_B "g1"), (ideal_bls_said lone_B), lone_full.
  split; [apply ideal_bls_unf|]. split; [by left|]. split; [apply lone_full_accepted|].
  intros (ids & Hnd & Hlen & Hall). cbn in Hlen.
  assert (forall id, In id ids -> toy_bls !! id = Some 1%Z) as H1.
  { intros id Hin. destruct (Hall id Hin) as [_ (k & Hk & HB)].
    apply elem_of_list_singleton in HB. by simplify_eq. }
  destruct ids as [|a [|b ids]]; cbn in Hlen; try lia.
  assert (a = b) as ->.
  { apply (toy_bls_inj _ _ 1%Z); apply H1; [by left|by right; left]. }
  apply NoDup_cons in Hnd as [Hn _]. apply Hn. left.
Qed.

(** A statement about logger 9101 signed by logger 9100. *)
Definition foreign_init : gobj :=
  mkobj CTNG_APPLICATION "07" STH_INIT "localhost:9101" []
    (rsasig_string (mkrsasig "s" "localhost:9100")) "" "t" "rsa" "localhost:9101" "x" "y".
Definition foreign_R : list (string * string) := [("k1", "localhost:9101xy")].

Lemma init_entity_refuted : exists (P : prims) (c : cconf P) said g,
  rsa_unforgeable c said /\ is_init g /\ verify c g = Accept /\
  g_signer g = g_p0 g /\ ~ said (g_p0 g) (covered g).
Proof.
  exists (ideal foreign_R []), (ideal_cc foreign_R [] "g1"), (ideal_rsa_said foreign_R), foreign_init.
  split; [apply ideal_rsa_unf|]. split; [by left|]. split; [vm_compute; reflexivity|]. split; [done|].
  intros (k & Hk & HR). apply elem_of_list_singleton in HR. injection HR as ->. vm_compute in Hk. congruence.
Qed.

(** A conflict proof made from one honest statement of the accused. *)
Definition single_R : list (string * string) := [("k1", "localhost:9100xy")].
Definition single_con : gobj :=
  mkobj CTNG_APPLICATION "07" CON_INIT "" []
    (rsasig_string (mkrsasig "s" "localhost:9100")) (rsasig_string (mkrsasig "s" "localhost:9100"))
    "t" "" "localhost:9100" "localhost:9100xy" "localhost:9100xy".

Lemma con_refuted : exists (P : prims) (c : cconf P) said g,
  rsa_unforgeable c said /\ is_con g /\ verify c g = Accept /\ ~ equivocated said (g_p0 g).
Proof.
  exists (ideal single_R []), (ideal_cc single_R [] "g1"), (ideal_rsa_said single_R), single_con.
  split; [apply ideal_rsa_unf|]. split; [done|]. split; [vm_compute; reflexivity|].
  intros (g & h & _ & _ & _ & Hne & (k & Hk & HR) & (k' & Hk' & HR')).
  apply elem_of_list_singleton in HR, HR'. congruence.
Qed.

(** One signature string valid for two entities. *)
Definition split_a : gobj := toy_init STH_INIT "07" "k1" "localhost:9100" "x" "y".
Definition split_b : gobj :=
  let '(mkobj a p t s ss s0 s1 ti sc _ _ _) := split_a in mkobj a p t s ss s0 s1 ti sc "localhost:910" "0x" "y".

Lemma covered_refuted : exists (P : prims) (c : cconf P) g h,
  verify c g = Accept /\ verify c h = Accept /\ g_s0 g = g_s0 h /\ covered g = covered h /\ g_p0 g <> g_p0 h.
Proof.
  exists toy, (toy_cc "g1" 1), split_a, split_b. vm_compute. split_and!; congruence.
Qed.
