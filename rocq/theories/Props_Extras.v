(** C108-C110: checking precertificates, loading stored objects, fetching certificates. *)
From Verif Require Import Bytes Types Crypto Verify Cert CertPool Clock Bitset Revocation Logger CA Monitor Extras Toy
  SpecCert SpecLogger SpecCA SpecExtras ExtrasFacts RefuteLogger RefuteCA RefuteExtras.
Open Scope string_scope.

(** C108: a logger logs only precertificates signed by a CA it accepts - REFUTED: it does not check. *)
Theorem C108_unchecked_refuted : exists s o,
  (forall cas keys, "nobody" ∉ cas -> verify_precert (P:=toy) cas keys nobody = false) /\
  lives toy_logger all_up (logger_init 0 0) with_nobody s o /\ Submit nobody ∈ with_nobody /\
  logged toy_logger all_up (logger_init 0 0) with_nobody nobody.
Proof. exact nobody_logged. Qed.
Print Assumptions C108_unchecked_refuted.

(** The function made for the purpose, which nothing calls, accepts exactly what it should, ... *)
Theorem C108_check_partial : forall (P : prims) cas (keys : gmap string (rsa_pub P)) c, verify_precert cas keys c = true <->
  c_issuer_cn c ∈ cas /\ exists pk, keys !! c_issuer_cn c = Some pk /\ rsa_check pk (c_tbs c) (c_sig c) = true.
Proof. exact @precert_exact. Qed.
Print Assumptions C108_check_partial.

(** ... in particular every precertificate a CA it accepts ever issues. *)
Theorem C108_issued_pass_partial : forall (P : prims) x z (c : caconf P) cc ty k d1 d2 l cas (keys : gmap string (rsa_pub P)) pk f,
  f ∈ all_issued x z c cc (ca_init x c ty k d1 d2) l ->
  cac_signer c ∈ cas -> keys !! cac_signer c = Some pk -> (forall m, rsa_check pk m (rsa_sign (cac_key c) m) = true) ->
  verify_precert cas keys f = true.
Proof. exact @issued_pass. Qed.
Print Assumptions C108_issued_pass_partial.

Example C108_ex : length issued1 = 1 /\ cac_signer toy_ca ∈ ["localhost:9000"] /\
  ({[ "localhost:9000" := cac_key toy_ca ]} : gmap string (rsa_pub toy)) !! cac_signer toy_ca = Some (cac_key toy_ca) /\
  (forall m, rsa_check (p:=toy) (cac_key toy_ca) m (rsa_sign (p:=toy) (cac_key toy_ca) m) = true).
Proof. exact issued1_ok. Qed.

(** C109: loading a file of objects of one kind makes each of them available under its identifier, the last one if there are
    several, and changes nothing else ... *)
Theorem C109_loaded_partial : forall s name l s' ok i, name ∈ loadable ->
  load_one_storage s name (Some (objs_marshal l)) = (s', ok) ->
  get_object s' i = if String.eqb (i_type i) name
                    then match last_with i l with Some g => g | None => get_object s i end else get_object s i.
Proof. exact loaded. Qed.
Print Assumptions C109_loaded_partial.

Example C109_ex : exists s', load_one_storage monitor_init STH_FULL (Some (objs_marshal [mkobj "CTng" "7" STH_FULL "" ["g1"] "a" "" "t" "b" "l1" "x" ""])) = (s', false) /\
  g_p1 (get_object s' (mkgid "7" STH_FULL "l1")) = "x".
Proof. eexists. split; vm_compute; reflexivity. Qed.

(** ... REFUTED: and reports success. *)
Theorem C109_error_refuted : forall s name l, snd (load_one_storage s name (Some (objs_marshal l))) = false.
Proof. exact load_fails. Qed.
Print Assumptions C109_error_refuted.

(** A file that is missing or is no list of objects has no effect. *)
Theorem C109_bad_file : forall s name b, (forall t, b = Some t -> objs_unmarshal t = None) -> load_one_storage s name b = (s, false).
Proof. exact load_bad. Qed.
Print Assumptions C109_bad_file.

(** C110: fetching a certificate gives the first one the site presents, and an error if there is none - REFUTED: without a certificate it
    panics, and without TLS it reports no error; *)
Theorem C110_empty_refuted : fetch_certificate (Tls []) = FetchPanic /\ fetch_certificate Plain = Got None.
Proof. exact (conj eq_refl eq_refl). Qed.
Print Assumptions C110_empty_refuted.

(** otherwise it holds. *)
Theorem C110_fetched_partial : forall r c, fetch_certificate r = Got (Some c) <-> exists l, r = Tls (Some c :: l).
Proof. exact fetched_iff. Qed.
Print Assumptions C110_fetched_partial.

Example C110_ex : fetch_certificate (Tls [Some nobody; None]) = Got (Some nobody).
Proof. reflexivity. Qed.
