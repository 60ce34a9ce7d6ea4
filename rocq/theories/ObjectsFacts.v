(** Proofs about the form of objects. *)
From Verif Require Import Bytes Hex Json Types Crypto Verify Merkle Cert Bitset Revocation Prog Gossiper Clock WireFacts RevocationFacts CodecFacts VerifyFacts SpecVerify SpecObjects.
From Verif Require Logger Monitor Client ClientFacts.
Open Scope string_scope.

Lemma fragment_form {P : prims} (c : gconf P) g st st' ts fr : is_init g -> run (generate_frag c g) st = (st', ts, Done fr) ->
  (exists n, n ∈ ["1"; "2"; "3"] /\ g_type g = type_no ("10" ++ n) /\
     labelled fr (g_app g) (type_no ("20" ++ n)) (g_period g) (cc_self (gc_crypto c)) (g_signers g) (g_s1 g) (g_time g) "bls") /\
  payload_is fr (g_p0 g) (g_p1 g) (g_p2 g).
Proof.
  intros Hi H. apply generate_frag_run in H as [_ ->]. destruct g as [a p t s ss s0 s1 ti sc p0 p1 p2]. unfold is_init in Hi. cbn [g_type] in *.
  split; [|by cbn]. destruct Hi as [->|[->| ->]]; [exists "1"|exists "2"|exists "3"]; (split; [set_solver|]); split; try reflexivity; cbn; done.
Qed.

Lemma aggregate_form {P : prims} (c : gconf P) l ty st st' ts full : run (generate_full c l ty) st = (st', ts, Done full) ->
  labelled full "CTng" ty (k_period st) "" (map g_signer l) "" (k_stamp st) "bls" /\
  exists g r, l = g :: r /\ payload_is full (g_p0 g) (g_p1 g) (g_p2 g).
Proof. intros H. apply generate_full_run in H as (g0 & r & -> & _ & _ & ->). split; [by cbn|]. exists g0, r. by cbn. Qed.

Lemma conflict_form period stamp a b :
  let con := generate_con (period, stamp) a b in
  labelled con "CTng" (type_no "104") period "" [] (g_s0 b) stamp "" /\ g_s0 con = g_s0 a /\
  payload_is con (g_p0 a) (g_p0 a ++ g_p1 a ++ g_p2 a) (g_p0 b ++ g_p1 b ++ g_p2 b).
Proof. by cbn. Qed.

Lemma head_form {P : prims} (c : @Logger.lconf P) certs t m g root pois : Logger.build_tree c certs t m = Some (g, root, pois) ->
  labelled g "CTng" (type_no "101") (itoa (Z.of_nat m)) (Logger.lc_signer c) [] "" (Logger.n_stamp t) "RSA" /\
  (exists p1, payload_is g (Logger.lc_signer c) p1 "") /\
  Client.head_of g = Some (mksth (Logger.lc_signer c) (Logger.n_stamp t) (pad2 (Logger.n_minute t)) (hex_encode root) (Z.of_nat (length certs))).
Proof.
  unfold Logger.build_tree. destruct (new_tree _ _) as [tr|]; [|done]. intros [= <- <- _]. split; [by cbn|]. split; [by eexists|].
  unfold Client.head_of, Logger.sth_object. cbn [g_p1]. by rewrite ClientFacts.hex_prefix_encode, sth_roundtrip.
Qed.

Lemma revocation_form {P : prims} z (sk : rsa_sec P) self signer v online period fake :
  let g := generate_revocation z sk self signer v online period fake in
  labelled g "CTng" (type_no "102") period signer [] "" "" "RSA" /\
  (exists p2, payload_is g signer "CRV" p2) /\ rv_period (rev_unmarshal (g_p2 g)) = period.
Proof. cbn zeta. split; [by cbn|]. split; [by eexists|]. unfold generate_revocation. cbn [g_p2]. by rewrite rev_roundtrip. Qed.

Lemma accusation_form {P : prims} (c : @Monitor.mconf P) m stamp e :
  let g := Monitor.accusation c m stamp e in
  labelled g "CTng" (type_no "103") (pad2 m) (cc_self (Monitor.mc_crypto c)) [] "" stamp "RSA" /\ payload_is g e "" "".
Proof. by cbn. Qed.

Lemma aggregate_type n g : n ∈ ["1"; "2"; "3"] -> g_type g = type_no ("20" ++ n) -> target_type g = type_no ("30" ++ n).
Proof.
  intros Hn E. unfold target_type, obj_kind. rewrite E.
  repeat (apply elem_of_cons in Hn as [->|Hn]; [vm_compute; reflexivity|]). by apply elem_of_nil in Hn.
Qed.
