(** Counterexamples and examples for Props_Extras.v. *)
From Verif Require Import Bytes Types Crypto Verify Cert CertPool Clock Logger Revocation CA Monitor Extras Toy SpecCert SpecLogger SpecCA SpecExtras
  LoggerFacts ExtrasFacts RefuteLogger RefuteCA.
From Coq Require Import Lia.
Open Scope string_scope.

(** A certificate of nobody, and one the CA made. *)
Definition nobody : cert := mkcert "raw" "tbs" "s9" "" "s9" "nobody" "k9" "" "" 9 "no signature" [] [] "".
Definition with_nobody : list levent := [Submit (toy_cert "s1" "k1" 1); Submit nobody; Publish (at_min 7) (at_min 7) (at_min 7)].

Lemma nobody_logged : exists s o,
  (forall cas keys, "nobody" ∉ cas -> verify_precert (P:=toy) cas keys nobody = false) /\
  lives toy_logger all_up (logger_init 0 0) with_nobody s o /\ Submit nobody ∈ with_nobody /\
  logged toy_logger all_up (logger_init 0 0) with_nobody nobody.
Proof.
  eexists _, _. split_and!; [|apply lrun_lives; vm_compute; reflexivity|right; left|].
  - intros cas keys H. destruct (verify_precert cas keys nobody) eqn:E; [|done]. apply precert_exact in E as [E _]. done.
  - eexists [_; _], _, _, _, [], _, _. split; [reflexivity|]. split; [apply lrun_lives; vm_compute; reflexivity|].
    vm_compute. right. left.
Qed.

Definition issued1 : list cert := all_issued toy_x toy_z toy_ca (toy_cc "localhost:9000" 0) (toy_ca0 0 0) [CIssue [toy_draw 3 "c"]].
Lemma issued1_ok : length issued1 = 1 /\ cac_signer toy_ca ∈ ["localhost:9000"] /\
  ({[ "localhost:9000" := cac_key toy_ca ]} : gmap string (rsa_pub toy)) !! cac_signer toy_ca = Some (cac_key toy_ca) /\
  (forall m, rsa_check (p:=toy) (cac_key toy_ca) m (rsa_sign (p:=toy) (cac_key toy_ca) m) = true).
Proof. split_and!; [vm_compute; reflexivity|left|vm_compute; reflexivity|]. intros m. cbn. apply String.eqb_refl. Qed.
