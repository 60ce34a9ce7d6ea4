(** C126 *)
From Verif Require Import Bytes Hex Json Types Crypto Verify Bitset Cert CertPool CTngExt Revocation Clock Prog Gossiper Network Overlap System SpecVerify SpecCert SpecGossiper SpecCodec SpecLogger SpecCA SpecNetwork SpecOverlap SpecSystem SpecSystemDetect SpecSystemDeliver SpecSystemAccept SystemAccept.
From Verif Require Logger CA Monitor Client SpecClient.
From Verif Require Import RefuteSystem RefuteSystemDeliver RefuteSystemIssue RefuteSystemAccept RefuteLogger RefuteCA Toy.
Open Scope string_scope.

(** C126: a CA issues a certificate and its precertificate arrives at a logger; the logger publishes; its tree head and then its proof arrive at the CA, which then
    can sign the certificate (the conditions are those of C125).  When the tree head has also been gossiped and the period has come to rest, with every message delivered and one version
    of each statement, every client that loads the update of any monitor accepts the certificate the CA signed, if the client has the logger's key, did not hold the logger convicted,
    and knows (or is sent) a revocation vector of the CA that does not revoke the certificate. *)
Theorem C126_issued_accepted_partial : forall (P : prims) (z : gzip) (x : CA.x509lib) (S : sysconf P) T p sec st lt ct Gs ca c cc lg lc pk, let W0 := world_init x S p sec st lt ct in
  agg_correct P -> fast_perm P -> (forall sg : bls_sig P, bls_deser (bls_ser sg) = Some sg) ->
  sy_cas S !! ca = Some (c, cc) -> CA.cac_signer c = ca -> sy_loggers S !! lg = Some lc -> lg ∈ CA.cac_loggers c -> ca ∈ Logger.lc_cas lc ->
  cc_sign_scheme cc = "rsa" -> cc_rsa_pubs cc !! Logger.lc_signer lc = Some pk -> Logger.lc_signer lc <> "" -> plain_id (Logger.lc_signer lc) = true ->
  (forall m, rsa_check pk m (rsa_sign (Logger.lc_key lc) m) = true) ->
  std_ok x -> (forall m n, CA.xl_name x m = CA.xl_name x n -> m = n) -> (forall m, h_sha256 P m <> "") ->
  forall l0 ds s0 crt, w_cas (wrun z x S W0 l0) !! ca = Some s0 -> NoDup (map (λ d, h_sha256 P (CA.d_pub d)) ds) ->
  crt ∈ CA.ca_issued x c s0 (CA.CIssue ds) ->
  (forall d, d ∈ get_certs (CA.a_pool s0) -> c_subject d <> c_subject crt /\ c_ski d <> c_ski crt) ->
  forall l1 i m l2 t t1 t2 sl, let lb := (l0 ++ [EIssue ca ds] ++ l1)%list in let lp := (lb ++ EDeliver i m :: l2)%list in
  w_mail (wrun z x S W0 lb) !! i = Some (Precert lg crt) ->
  (forall s d, w_loggers (wrun z x S W0 lb) !! lg = Some s -> d ∈ get_certs (Logger.l_pool s) -> c_subject d <> c_subject crt) ->
  ELogPeriod lg ∉ l2 -> w_loggers (wrun z x S W0 lp) !! lg = Some sl -> 2 <= length (get_certs (Logger.l_pool sl)) -> ski_unique (get_certs (Logger.l_pool sl)) ->
  (forall d, d ∈ get_certs (Logger.l_pool sl) -> c_ski d <> "" -> is_Some (w_cas (wrun z x S W0 lp) !! c_issuer_cn d)) ->
  let Wp := wrun z x S W0 (lp ++ [EPublish lg t t1 t2]) in
  exists g pr, Head ca g ∈ w_mail Wp /\ Proof_ ca pr ∈ w_mail Wp /\
    (exists sl', w_loggers Wp !! lg = Some sl' /\ Logger.l_sth sl' !! pad2 (Datatypes.S (Logger.n_minute t)) = Some g) /\ poi_ski pr = c_ski crt /\
    forall l3 i1 m1 l4 i2 m2, let lh := (l3 ++ EDeliver i1 m1 :: l4)%list in
    (forall rs m', ECaPeriod ca rs m' ∉ (l1 ++ l2 ++ l3 ++ l4)%list) ->
    w_mail (wrun z x S Wp l3) !! i1 = Some (Head ca g) -> w_mail (wrun z x S Wp lh) !! i2 = Some (Proof_ ca pr) ->
    (forall ds', EIssue ca ds' ∉ l4) ->
    (forall g', arrives z x S (wrun z x S Wp (l3 ++ [EDeliver i1 m1])) l4 (Head ca g') -> g_signer g' = Logger.lc_signer lc -> g' = g) ->
    (forall s crt1, w_cas (wrun z x S Wp lh) !! ca = Some s -> get_by_ski (CA.a_pool s) (c_ski crt) = Some crt1 ->
      (forall j, j ∈ SpecClient.relied_on crt1 -> g_signer (li_sth j) <> Logger.lc_signer lc) /\
      ext_ok (mkctng (cert_rid crt1) (SpecClient.relied_on crt1 ++ [mkloginfo g pr]))) ->
    exists s' final, w_cas (wrun z x S Wp (lh ++ [EDeliver i2 m2])) !! ca = Some s' /\ final ∈ CA.sign_all x c s' /\ same_subject final crt /\ c_issuer_cn final = ca /\
      forall l5, let l := (lp ++ EPublish lg t t1 t2 :: lh ++ EDeliver i2 m2 :: l5)%list in
      good_period z x S T p Gs W0 l -> (exists u, arrives z x S W0 l (ToGossip u g) /\ is_Some (sy_gossipers S !! u)) ->
      forall mon mc cl ccl sc n flag, ready z x S p Gs W0 l mon mc cl ccl sc -> p = pad2 n ->
      cc_sign_scheme ccl = "rsa" -> cc_rsa_pubs ccl !! Logger.lc_signer lc = Some pk -> ~ SpecClient.convicted sc (Logger.lc_signer lc) ->
      (forall i, i ∈ SpecClient.relied_on final -> verify ccl (li_sth i) <> Panics) -> known_unrevoked z x S W0 l sc ca final ->
      exists sc', w_clients (wrun z x S W0 (l ++ period_end_and_load mon n cl ("Period_" ++ itoa (Z.of_nat n - Monitor.mc_offset mc)) flag)) !! cl = Some sc' /\
        Client.check_certificate ccl sc' final = Accept.
Proof. exact @SystemAccept.issued_accepted. Qed.
Print Assumptions C126_issued_accepted_partial.

(** The hypotheses hold in the run of the small system; the theorem applied to it. *)
Example C126_good_ex : good_period toy_z toy_x toy_sys 2 "12" two_said (start "12") deliver_world /\
  ready toy_z toy_x toy_sys "12" two_said (start "12") deliver_world "m2" (sys_mon "m2" "km2") "c1" (sys_cc "c1" "" 0) cl0.
Proof. exact (conj toy_good toy_ready). Qed.
Example C126_ex : exists s' final sc', w_cas (wrun toy_z toy_x toy_sys after_publish [EDeliver 0 11; EDeliver 0 11]) !! ca = Some s' /\
  final ∈ CA.sign_all toy_x toy_caconf s' /\ same_subject final first_cert /\
  w_clients (sys_run (start "12") (deliver_world ++ period_end_and_load "m2" 12 "c1" "Period_12" true)) !! "c1" = Some sc' /\
  Client.check_certificate (sys_cc "c1" "" 0) sc' final = Accept.
Proof. exact accept_applies. Qed.
