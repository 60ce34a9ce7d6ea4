(** C01-C07: verification and identifiers. *)
From Verif Require Import Bytes Hex Json Types Crypto Verify Prog Gossiper SpecCodec SpecVerify Toy CodecFacts CryptoFacts VerifyFacts ToyFacts RefuteVerify.
Open Scope string_scope.

(** C01: Verify returns nil exactly on acceptable objects ... *)
Theorem C01_verify_iff : forall (P : prims) (c : cconf P) (g : gobj), verify c g = Accept <-> acceptable c g.
Proof. exact @verify_iff. Qed.
Print Assumptions C01_verify_iff.

(** ... its outcome depends on type, signatures and payload only ... *)
Theorem C01_other_fields_irrelevant : forall (P : prims) (c : cconf P) (g h : gobj),
  same_core g h -> verify c g = verify c h.
Proof. exact @verify_core. Qed.
Print Assumptions C01_other_fields_irrelevant.

(** ... any other type string is rejected ... *)
Theorem C01_unknown_type_rejected : forall (P : prims) (c : cconf P) (g : gobj),
  g_type g ∉ [STH_INIT; REV_INIT; ACC_INIT; CON_INIT; STH_FRAG; REV_FRAG; ACC_FRAG; STH_FULL; REV_FULL; ACC_FULL] ->
  verify c g = Reject.
Proof. exact @verify_unknown. Qed.
Print Assumptions C01_unknown_type_rejected.

(** ... and it panics only for an RSA identity without a key. *)
Theorem C01_panic_only_on_missing_key : forall (P : prims) (c : cconf P) (g : gobj),
  verify c g = Panics ->
  rsa_nokey_panics P = true /\
  exists str s, (str = g_s0 g \/ str = g_s1 g) /\ rsasig_from_string str = Some s /\ cc_rsa_pubs c !! rs_id s = None.
Proof. exact @verify_panics. Qed.
Print Assumptions C01_panic_only_on_missing_key.

Example C01_ex_accept : verify (toy_cc "g1" 1) (toy_init STH_INIT "07" "k1" "localhost:9100" "x" "y") = Accept.
Proof. vm_compute. reflexivity. Qed.
Example C01_ex_reject : verify (toy_cc "g1" 1) (toy_init STH_INIT "07" "k2" "localhost:9100" "x" "y") = Reject.
Proof. vm_compute. reflexivity. Qed.
Example C01_ex_panic : verify (toy_cc "g1" 1) (toy_init STH_INIT "07" "k1" "nobody" "x" "y") = Panics.
Proof. vm_compute. reflexivity. Qed.
Example C01_ex_frag : verify (toy_cc "g1" 1) (toy_frag REV_FRAG "07" "g2" 10 "localhost:9000" "x" "y") = Accept.
Proof. vm_compute. reflexivity. Qed.

(** C02: honest statements, fragments and aggregates are accepted. *)
Theorem C02_honest_init_accepted : forall (P : prims) (c cs : cconf P) pk (g : gobj) (s : rsasig),
  is_init g -> g_p0 g <> "" -> plain_id (cc_self cs) = true ->
  cc_sign cs (covered g) = Some s -> g_s0 g = rsasig_string s ->
  cc_sign_scheme c = "rsa" -> cc_rsa_pubs c !! cc_self cs = Some pk ->
  rsa_check pk (covered g) (rsa_sign (cc_rsa_sec cs) (covered g)) = true ->
  verify c g = Accept.
Proof. exact @honest_init. Qed.
Print Assumptions C02_honest_init_accepted.

Theorem C02_honest_fragment_accepted : forall (P : prims) (c : cconf P) (cfg : gconf P) pk g st st' ts fr,
  is_init g -> g_p0 g <> "" -> plain_id (cc_self (gc_crypto cfg)) = true ->
  run (generate_frag cfg g) st = (st', ts, Done fr) ->
  cc_thr_scheme c = "bls" -> cc_bls_pubs c !! cc_self (gc_crypto cfg) = Some pk ->
  (forall sg : bls_sig P, bls_deser (bls_ser sg) = Some sg) ->
  bls_check pk (covered g) (bls_sign (cc_bls_sec (gc_crypto cfg)) (covered g)) = true ->
  verify c fr = Accept.
Proof. exact @honest_frag. Qed.
Print Assumptions C02_honest_fragment_accepted.

Theorem C02_honest_aggregate_accepted : forall (P : prims) (c : cconf P) (cfg : gconf P)
    (l : list gobj) (signers : list (sigfrag P)) ty p0 p1 p2 st st' ts full,
  agg_correct P -> fast_perm P -> (forall sg : bls_sig P, bls_deser (bls_ser sg) = Some sg) ->
  p0 <> "" -> ty ∈ [STH_FULL; REV_FULL; ACC_FULL] -> cc_thr_scheme c = "bls" ->
  Forall2 (λ g f, g_s0 g = sigfrag_string f /\ plain_id (sf_id f) = true /\
                  (g_p0 g = p0 /\ g_p1 g = p1 /\ g_p2 g = p2) /\
                  exists pk, cc_bls_pubs c !! sf_id f = Some pk /\ bls_check pk (p0 ++ p1 ++ p2) (sf_sign f) = true)
          l signers ->
  run (generate_full cfg l ty) st = (st', ts, Done full) ->
  verify c full = Accept.
Proof. exact @honest_full. Qed.
Print Assumptions C02_honest_aggregate_accepted.

Example C02_ex_laws : agg_correct toy /\ fast_perm toy /\ (forall sg : bls_sig toy, bls_deser (bls_ser sg) = Some sg).
Proof. exact (conj toy_agg (conj toy_perm toy_deser)). Qed.
Example C02_ex_full :
  match run (generate_full (toy_conf "g1" 1)
         [toy_frag STH_FRAG "07" "g2" 10 "localhost:9100" "x" "y"; toy_frag STH_FRAG "07" "g1" 1 "localhost:9100" "x" "y"]
         STH_FULL) (init_gst "07" "" "") with
  | (_, _, Done full) => verify (toy_cc "g3" 100) full = Accept
  | _ => False
  end.
Proof. vm_compute. reflexivity. Qed.
Example C02_ex_frag :
  match run (generate_frag (toy_conf "g1" 1) (toy_init STH_INIT "07" "k1" "localhost:9100" "x" "y")) (init_gst "07" "" "") with
  | (_, _, Done fr) => verify (toy_cc "g3" 100) fr = Accept
  | _ => False
  end.
Proof. vm_compute. reflexivity. Qed.

(** C03 is false: a FULL object with fewer signers than the threshold is
    accepted, although signatures cannot be forged. *)
Theorem C03_full_threshold_refuted : exists (P : prims) (c : cconf P) said g,
  bls_unforgeable c said /\ is_full g /\ verify c g = Accept /\
  ~ signed_by_at_least c said (cc_threshold c) (covered g).
Proof. exact full_threshold_refuted. Qed.
Print Assumptions C03_full_threshold_refuted.

(** What holds: all registered identities listed signed, and the claim
    follows if the list itself is long enough. *)
Theorem C03_listed_signers_signed_partial : forall (P : prims) (c : cconf P) said g,
  bls_unforgeable c said -> is_full g -> verify c g = Accept ->
  exists ids sg err, thrsig_from_string (g_s0 g) = (mkthr (P:=P) ids sg, err) /\ ids <> [] /\
    forall id, In id ids -> is_Some (cc_bls_pubs c !! id) -> said id (covered g).
Proof. exact @full_signers. Qed.
Print Assumptions C03_listed_signers_signed_partial.

Theorem C03_full_threshold_partial : forall (P : prims) (c : cconf P) said g,
  bls_unforgeable c said -> is_full g -> verify c g = Accept ->
  (forall ids sg err, thrsig_from_string (g_s0 g) = (mkthr (P:=P) ids sg, err) ->
     NoDup ids /\ cc_threshold c <= length ids /\ (forall id, In id ids -> is_Some (cc_bls_pubs c !! id))) ->
  signed_by_at_least c said (cc_threshold c) (covered g).
Proof. exact @full_threshold. Qed.
Print Assumptions C03_full_threshold_partial.

Example C03_ex : bls_unforgeable (ideal_cc [] lone_B "g1") (ideal_bls_said lone_B) /\
  verify (ideal_cc [] lone_B "g1") lone_full = Accept.
Proof. exact (conj (ideal_bls_unf [] lone_B "g1") lone_full_accepted). Qed.

(** C04 is false: the entity named need not be the one that signed. *)
Theorem C04_signed_by_entity_refuted : exists (P : prims) (c : cconf P) said g,
  rsa_unforgeable c said /\ is_init g /\ verify c g = Accept /\
  g_signer g = g_p0 g /\ ~ said (g_p0 g) (covered g).
Proof. exact init_entity_refuted. Qed.
Print Assumptions C04_signed_by_entity_refuted.

Theorem C04_signed_by_somebody_partial : forall (P : prims) (c : cconf P) said g,
  rsa_unforgeable c said -> is_init g -> verify c g = Accept ->
  exists s, rsasig_from_string (g_s0 g) = Some s /\ said (rs_id s) (covered g).
Proof. exact @init_signed. Qed.
Print Assumptions C04_signed_by_somebody_partial.

Theorem C04_signed_by_entity_partial : forall (P : prims) (c : cconf P) said g,
  rsa_unforgeable c said -> is_init g -> verify c g = Accept ->
  (forall s, rsasig_from_string (g_s0 g) = Some s -> rs_id s = g_p0 g) -> said (g_p0 g) (covered g).
Proof. exact @init_signed_entity. Qed.
Print Assumptions C04_signed_by_entity_partial.

(** C05 is false: one honest statement is enough for a conflict proof ... *)
Theorem C05_conflict_proof_refuted : exists (P : prims) (c : cconf P) said g,
  rsa_unforgeable c said /\ is_con g /\ verify c g = Accept /\ ~ equivocated said (g_p0 g).
Proof. exact con_refuted. Qed.
Print Assumptions C05_conflict_proof_refuted.

(** ... indeed any single valid RSA signature, by anybody over anything,
    convicts any entity. *)
Theorem C05_one_signature_convicts_anyone : forall (P : prims) (c : cconf P) str m victim,
  rsa_valid c str m ->
  verify c (mkobj CTNG_APPLICATION "0" CON_INIT "" [] str str "" "" victim m m) = Accept.
Proof. exact @con_from_one. Qed.
Print Assumptions C05_one_signature_convicts_anyone.

Theorem C05_conflict_proof_partial : forall (P : prims) (c : cconf P) said g,
  rsa_unforgeable c said -> is_con g -> verify c g = Accept ->
  exists s1 s2, rsasig_from_string (g_s0 g) = Some s1 /\ rsasig_from_string (g_s1 g) = Some s2 /\
    said (rs_id s1) (g_p1 g) /\ said (rs_id s2) (g_p2 g).
Proof. exact @con_signed. Qed.
Print Assumptions C05_conflict_proof_partial.

Example C05_ex : verify (ideal_cc single_R [] "g1") single_con = Accept.
Proof. vm_compute. reflexivity. Qed.

(** C06 is false: one signature covers two different payloads ... *)
Theorem C06_payload_determined_refuted : exists (P : prims) (c : cconf P) g h,
  verify c g = Accept /\ verify c h = Accept /\ g_s0 g = g_s0 h /\ covered g = covered h /\ g_p0 g <> g_p0 h.
Proof. exact covered_refuted. Qed.
Print Assumptions C06_payload_determined_refuted.

(** ... but it determines payloads of the same shape. *)
Theorem C06_payload_determined_partial : forall g h,
  len (g_p0 g) = len (g_p0 h) -> len (g_p1 g) = len (g_p1 h) ->
  covered g = covered h -> g_p0 g = g_p0 h /\ g_p1 g = g_p1 h /\ g_p2 g = g_p2 h.
Proof. exact covered_inj. Qed.
Print Assumptions C06_payload_determined_partial.
