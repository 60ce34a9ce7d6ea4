(** The certificates a CA signs, however its tasks interleave. *)
From Verif Require Import Bytes Json Types Crypto Verify SpecCodec Merkle Cert CertPool CTngExt Clock SpecCert Bitset Revocation CA SpecCA FineCA SpecFineCA SpecSigned FineCASigned.
From Verif Require Import RefuteCA RefuteFineCA RefuteFineCAPool Toy.
Open Scope string_scope.

(* ---------------------------------------------------------------- *)
(** C153: in every interleaving, the root certificate, every certificate a CA signs or posts to a logger, and every final one it would sign now: the signed bytes encode exactly its fields, the signature is
    the CA's, the issuer is the CA, and there is one CTng extension, which is not critical. *)
Theorem C153_well_signed {P : prims} x z (c : caconf P) cc : std_ok x -> forall ty k d1 d2 l f, let r := cfrun x z c cc (fc_init x c ty k d1 d2) l in
  f = a_root (fc_st (fst r)) \/ f ∈ signed (snd r) \/ (exists g, CMsg (PrecertTo g f) ∈ snd r) \/ f ∈ sign_all x c (fc_st (fst r)) -> well_signed x c f.
Proof. exact (λ Hx ty k d1 d2 l f, @every_well P x z c cc Hx ty k d1 d2 l f). Qed.
Print Assumptions C153_well_signed.

Example C153_ex : std_ok toy_x /\ let r := cfrun toy_x toy_z toy_ca (toy_cc "localhost:9000" 0) toy_fc0 in_turn in
  map c_subject_cn (signed (snd r)) = ["Testing Dummy 1"] /\
  map (λ f, (c_subject_cn f, map (λ i, g_signer (li_sth i)) (x_infos (parse_ctng f)))) (sign_all toy_x toy_ca (fc_st (fst r))) = [("Testing Dummy 1", ["localhost:9100"; "localhost:9101"])].
Proof. split; [exact toy_std|vm_compute; done]. Qed.
