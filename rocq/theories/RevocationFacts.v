(** Facts about Revocation.v. *)
From Verif Require Import Bytes Hex Base64 Json Types Crypto Verify Cert CertPool CTngExt Bitset Revocation CA
  SpecCodec SpecVerify SpecCA CodecFacts CryptoFacts JsonFacts Base64Facts VerifyFacts ExtFacts BitsetFacts.
Open Scope string_scope.

Lemma rev_roundtrip r : rev_unmarshal (rev_marshal r) = r.
Proof.
  unfold rev_unmarshal, rev_marshal. rewrite parse_json_print.
  - destruct r as [p d s]. cbn [rev_json tol_struct fold_left rv_period rv_delta rv_srh].
    unfold rev_tol, tol_string, tol_bytes. cbn [rv_period rv_delta rv_srh].
    change (String.eqb (lower_str "Period") "period") with true.
    change (String.eqb (lower_str "Delta_CRV") "period") with false. change (String.eqb (lower_str "Delta_CRV") "delta_crv") with true.
    change (String.eqb (lower_str "SRH") "period") with false. change (String.eqb (lower_str "SRH") "delta_crv") with false.
    change (String.eqb (lower_str "SRH") "srh") with true. cbn iota.
    rewrite b64_roundtrip. reflexivity.
  - cbn. repeat constructor.
Qed.

Lemma rev_marshal_inj a b : rev_marshal a = rev_marshal b -> a = b.
Proof. intros E. rewrite <- (rev_roundtrip a), <- (rev_roundtrip b), E. reflexivity. Qed.

Section with_prims.
Context {P : prims}.

Lemma generated_decodes (z : gzip) (sk : rsa_sec P) self signer v online period fake : gzip_ok z ->
  bs_ok (revocation_delta v online fake) ->
  srh_and_dcrv z (generate_revocation z sk self signer v online period fake) =
  (rsa_sign_string sk self (srh_message (P:=P) period (v_cur v) (revocation_delta v online fake)), revocation_delta v online fake).
Proof.
  intros Hz Hd. unfold srh_and_dcrv, generate_revocation. cbn [g_p2]. rewrite rev_roundtrip. cbn [rv_srh rv_delta].
  rewrite Hz. match goal with |- context [default "" (Some ?x)] => change (default "" (Some x)) with x end.
  rewrite bs_roundtrip by exact Hd. reflexivity.
Qed.

Lemma verify_srh_signed (c : cconf P) (sk : rsa_sec P) pk self d w period m : plain_id self = true ->
  cc_rsa_pubs c !! self = Some pk ->
  verify_srh c (rsa_sign_string sk self m) d w period =
  if rsa_check pk (srh_message (P:=P) period (default d w) d) (rsa_sign sk m) then Accept else Reject.
Proof.
  intros Hp Hk. unfold verify_srh, rsa_sign_string. rewrite rsasig_roundtrip by exact Hp.
  match goal with |- context [default (mkrsasig "" "") (Some ?x)] => change (default (mkrsasig "" "") (Some x)) with x end.
  cbn [rs_id rs_sig]. rewrite Hk. reflexivity.
Qed.

Lemma generated_verifies (c : cconf P) (z : gzip) (sk : rsa_sec P) pk self signer v online period fake :
  cc_sign_scheme c = "rsa" -> cc_rsa_pubs c !! self = Some pk -> plain_id self = true -> signer <> "" ->
  (forall m, rsa_check pk m (rsa_sign sk m) = true) ->
  verify c (generate_revocation z sk self signer v online period fake) = Accept.
Proof.
  intros Hs Hk Hp Hn Hc. apply verify_iff. left. split_and!.
  - right. left. reflexivity.
  - cbn. discriminate.
  - exact Hn.
  - eexists _, pk. split; [apply rsasig_roundtrip; exact Hp|]. split_and!; [exact Hs|exact Hk|]. apply Hc.
Qed.
End with_prims.

Lemma to_uint_small z : (0 <= z < 18446744073709551616)%Z -> to_uint z = Z.to_N z.
Proof. intros H. unfold to_uint. rewrite Z.mod_small by exact H. reflexivity. Qed.
