(** C125 *)
From Verif Require Import Bytes Hex Json Types Crypto Verify Bitset Cert CertPool CTngExt Revocation Clock Prog Gossiper Network Overlap System SpecVerify SpecCert SpecGossiper SpecCodec SpecLogger SpecCA SpecNetwork SpecOverlap SpecSystem SpecSystemDetect SpecSystemDeliver SystemIssue.
From Verif Require Logger CA Monitor Client SpecClient.
From Verif Require Import RefuteSystem RefuteSystemIssue RefuteLogger RefuteCA Toy.
Open Scope string_scope.

(** C125: a certificate issued by a CA to a logger whose key the CA has.  When the precertificate arrives at the logger (with no certificate for
    the same subject in its pool), the logger publishes a tree before it ends the period (with all keys different and all issuers running), and first the tree head and then the
    proof arrive at the CA (no other tree head of the logger in between, and no new certificates or end of the period at the CA), the signed certificate lists the tree head with a proof that
    the subject is in that tree, for the same subject and key; whatever else happens in the system in the meantime. *)
Theorem C125_included_partial : forall (P : prims) (z : gzip) (x : CA.x509lib) (S : sysconf P) a b d0 lt ct ca c cc lg lc pk, let W0 := world_init x S a b d0 lt ct in
  sy_cas S !! ca = Some (c, cc) -> CA.cac_signer c = ca -> sy_loggers S !! lg = Some lc -> lg ∈ CA.cac_loggers c -> ca ∈ Logger.lc_cas lc ->
  cc_sign_scheme cc = "rsa" -> cc_rsa_pubs cc !! Logger.lc_signer lc = Some pk -> Logger.lc_signer lc <> "" -> plain_id (Logger.lc_signer lc) = true ->
  (forall m, rsa_check pk m (rsa_sign (Logger.lc_key lc) m) = true) ->
  std_ok x -> (forall m n, CA.xl_name x m = CA.xl_name x n -> m = n) -> (forall m, h_sha256 P m <> "") ->
  forall l0 ds s0 crt, w_cas (wrun z x S W0 l0) !! ca = Some s0 -> NoDup (map (λ d, h_sha256 P (CA.d_pub d)) ds) ->
  crt ∈ CA.ca_issued x c s0 (CA.CIssue ds) ->
  (forall d, d ∈ get_certs (CA.a_pool s0) -> c_subject d <> c_subject crt /\ c_ski d <> c_ski crt) ->
  let la := (l0 ++ [EIssue ca ds])%list in
  Precert lg crt ∈ w_mail (wrun z x S W0 la) /\
  forall l1 i m l2 t t1 t2 sl, let lb := (la ++ l1)%list in let lp := (lb ++ EDeliver i m :: l2)%list in
  w_mail (wrun z x S W0 lb) !! i = Some (Precert lg crt) ->
  (forall s d, w_loggers (wrun z x S W0 lb) !! lg = Some s -> d ∈ get_certs (Logger.l_pool s) -> c_subject d <> c_subject crt) ->
  ELogPeriod lg ∉ l2 -> w_loggers (wrun z x S W0 lp) !! lg = Some sl -> 2 <= length (get_certs (Logger.l_pool sl)) -> ski_unique (get_certs (Logger.l_pool sl)) ->
  (forall d, d ∈ get_certs (Logger.l_pool sl) -> c_ski d <> "" -> is_Some (w_cas (wrun z x S W0 lp) !! c_issuer_cn d)) ->
  let Wp := wrun z x S W0 (lp ++ [EPublish lg t t1 t2]) in
  exists g p sl', w_loggers Wp !! lg = Some sl' /\ Logger.l_sth sl' !! pad2 (Datatypes.S (Logger.n_minute t)) = Some g /\ g_type g = STH_INIT /\ g_signer g = Logger.lc_signer lc /\
    (forall cc', cc_sign_scheme cc' = "rsa" -> cc_rsa_pubs cc' !! Logger.lc_signer lc = Some pk -> verify cc' g = Accept) /\
    poi_ski p = c_ski crt /\ poi_logger p = Logger.lc_signer lc /\ Head ca g ∈ w_mail Wp /\ Proof_ ca p ∈ w_mail Wp /\
    forall l3 i1 m1 l4 i2 m2, let lh := (l3 ++ EDeliver i1 m1 :: l4)%list in
    (forall rs m', ECaPeriod ca rs m' ∉ (l1 ++ l2 ++ l3 ++ l4)%list) ->
    w_mail (wrun z x S Wp l3) !! i1 = Some (Head ca g) -> w_mail (wrun z x S Wp lh) !! i2 = Some (Proof_ ca p) ->
    (forall ds', EIssue ca ds' ∉ l4) ->
    (forall g', arrives z x S (wrun z x S Wp (l3 ++ [EDeliver i1 m1])) l4 (Head ca g') -> g_signer g' = Logger.lc_signer lc -> g' = g) ->
    exists s crt1, w_cas (wrun z x S Wp lh) !! ca = Some s /\ get_by_ski (CA.a_pool s) (c_ski crt) = Some crt1 /\ same_subject crt1 crt /\
      ((forall j, j ∈ SpecClient.relied_on crt1 -> g_signer (li_sth j) <> Logger.lc_signer lc) ->
       ext_ok (mkctng (cert_rid crt1) (SpecClient.relied_on crt1 ++ [mkloginfo g p])) ->
       exists s' crt2 final, w_cas (wrun z x S Wp (lh ++ [EDeliver i2 m2])) !! ca = Some s' /\ get_by_ski (CA.a_pool s') (c_ski crt) = Some crt2 /\
         SpecClient.relied_on crt2 = (SpecClient.relied_on crt1 ++ [mkloginfo g p])%list /\
         final ∈ CA.sign_all x c s' /\ same_subject final crt /\ c_issuer_cn final = ca /\ cert_rid final = cert_rid crt1 /\
         SpecClient.relied_on final = SpecClient.relied_on crt2 /\ proves_inclusion (P := P) final (mkloginfo g p)).
Proof. exact @issued_included. Qed.
Print Assumptions C125_included_partial.

Example C125_start_ex : sy_cas toy_sys !! ca = Some (toy_caconf, sys_cc ca "k3" 0) /\ CA.cac_signer toy_caconf = ca /\
  sy_loggers toy_sys !! lg = Some (Logger.mklconf (P:=toy) lg [ca] "k1") /\ lg ∈ CA.cac_loggers toy_caconf /\ cc_rsa_pubs (sys_cc ca "k3" 0) !! lg = Some "k1" /\ plain_id lg = true /\
  (forall m, rsa_check (p := toy) "k1" m (rsa_sign (p := toy) "k1" m) = true) /\ std_ok toy_x /\ (forall m n, CA.xl_name toy_x m = CA.xl_name toy_x n -> m = n) /\ (forall m, h_sha256 toy m <> "") /\
  w_cas (start "12") !! ca = Some ca_start /\ NoDup (map (λ d, h_sha256 toy (CA.d_pub d)) two_draws) /\ first_cert ∈ CA.ca_issued toy_x toy_caconf ca_start (CA.CIssue two_draws) /\
  get_certs (CA.a_pool ca_start) = [].
Proof. exact issue_start. Qed.

(** The hypotheses hold in a run: the theorem applied to it. *)
Example C125_ex : exists g p s' final, w_cas (wrun toy_z toy_x toy_sys after_publish [EDeliver 0 11; EDeliver 0 11]) !! ca = Some s' /\
  final ∈ CA.sign_all toy_x toy_caconf s' /\ same_subject final first_cert /\ SpecClient.relied_on final = [mkloginfo g p] /\ proves_inclusion (P := toy) final (mkloginfo g p).
Proof. exact issue_applies. Qed.

(** Two CAs that issue for different keys: the subjects are the same, and the certificates of the second get no proof, although every message arrives in order. *)
Theorem C125_two_cas_refuted : w_mail (wrun toy_z toy_x two_cas two_start two_issue) = [] /\ is_Some (w_loggers (wrun toy_z toy_x two_cas two_start two_issue) !! lg) /\
  (exists s1, w_cas (wrun toy_z toy_x two_cas two_start two_issue) !! ca = Some s1 /\ map (λ f, length (SpecClient.relied_on f)) (CA.sign_all toy_x toy_caconf s1) = [1; 1]) /\
  (exists s2, w_cas (wrun toy_z toy_x two_cas two_start two_issue) !! ca2 = Some s2 /\
     map (λ f, (c_subject_cn f, c_pub f, SpecClient.relied_on f)) (CA.sign_all toy_x (CA.mkcaconf (P:=toy) ca2 [lg] ca2 "k4" "pk2") s2) = [("Testing Dummy 1", "e", []); ("Testing Dummy 2", "f", [])]).
Proof. exact two_cas_lost. Qed.
Print Assumptions C125_two_cas_refuted.
