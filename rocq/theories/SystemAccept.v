(** A certificate from the CA to the clients. *)
From Verif Require Import Bytes Hex Json Types Crypto Verify Bitset Cert CertPool CTngExt Revocation Clock Prog Gossiper Network Overlap System SpecVerify SpecCert SpecGossiper SpecCodec SpecLogger SpecCA SpecNetwork SpecOverlap SpecSystem SpecSystemDetect SpecSystemDeliver SpecSystemAccept SystemDeliver SystemIssue.
From Verif Require Logger CA Monitor Client SpecClient.
Open Scope string_scope.

Theorem issued_accepted {P : prims} (z : gzip) (x : CA.x509lib) (S : sysconf P) T p sec st lt ct Gs ca c cc lg lc pk : let W0 := world_init x S p sec st lt ct in
  agg_correct P -> fast_perm P -> (forall sg : bls_sig P, bls_deser (bls_ser sg) = Some sg) ->
  sy_cas S !! ca = Some (c, cc) -> CA.cac_signer c = ca -> sy_loggers S !! lg = Some lc -> lg ∈ CA.cac_loggers c -> ca ∈ Logger.lc_cas lc ->
  cc_sign_scheme cc = "rsa" -> cc_rsa_pubs cc !! Logger.lc_signer lc = Some pk -> Logger.lc_signer lc <> "" -> plain_id (Logger.lc_signer lc) = true ->
  (forall m, rsa_check pk m (rsa_sign (Logger.lc_key lc) m) = true) ->
  std_ok x -> (forall m n, CA.xl_name x m = CA.xl_name x n -> m = n) -> (forall m, h_sha256 P m <> "") ->
  forall l0 ds s0 crt, w_cas (wrun z x S W0 l0) !! ca = Some s0 -> NoDup (map (λ d, h_sha256 P (CA.d_pub d)) ds) ->
  crt ∈ CA.ca_issued x c s0 (CA.CIssue ds) ->
  (forall d, d ∈ get_certs (CA.a_pool s0) -> c_subject d <> c_subject crt /\ c_ski d <> c_ski crt) ->
  forall l1 i m l2 t t1 t2 sl, let lb := (l0 ++ [EIssue ca ds] ++ l1)%list in let lp := (lb ++ EDeliver i m :: l2)%list in
  w_mail (wrun z x S W0 lb) !! i = Some (Precert lg crt) ->
  (forall s d, w_loggers (wrun z x S W0 lb) !! lg = Some s -> d ∈ get_certs (Logger.l_pool s) -> c_subject d <> c_subject crt) ->
  ELogPeriod lg ∉ l2 -> w_loggers (wrun z x S W0 lp) !! lg = Some sl -> 2 <= length (get_certs (Logger.l_pool sl)) -> ski_unique (get_certs (Logger.l_pool sl)) ->
  (forall d, d ∈ get_certs (Logger.l_pool sl) -> c_ski d <> "" -> is_Some (w_cas (wrun z x S W0 lp) !! c_issuer_cn d)) ->
  let Wp := wrun z x S W0 (lp ++ [EPublish lg t t1 t2]) in
  exists g pr, Head ca g ∈ w_mail Wp /\ Proof_ ca pr ∈ w_mail Wp /\
    (exists sl', w_loggers Wp !! lg = Some sl' /\ Logger.l_sth sl' !! pad2 (Datatypes.S (Logger.n_minute t)) = Some g) /\ poi_ski pr = c_ski crt /\
    forall l3 i1 m1 l4 i2 m2, let lh := (l3 ++ EDeliver i1 m1 :: l4)%list in
    (forall rs m', ECaPeriod ca rs m' ∉ (l1 ++ l2 ++ l3 ++ l4)%list) ->
    w_mail (wrun z x S Wp l3) !! i1 = Some (Head ca g) -> w_mail (wrun z x S Wp lh) !! i2 = Some (Proof_ ca pr) ->
    (forall ds', EIssue ca ds' ∉ l4) ->
    (forall g', arrives z x S (wrun z x S Wp (l3 ++ [EDeliver i1 m1])) l4 (Head ca g') -> g_signer g' = Logger.lc_signer lc -> g' = g) ->
    (forall s crt1, w_cas (wrun z x S Wp lh) !! ca = Some s -> get_by_ski (CA.a_pool s) (c_ski crt) = Some crt1 ->
      (forall j, j ∈ SpecClient.relied_on crt1 -> g_signer (li_sth j) <> Logger.lc_signer lc) /\
      ext_ok (mkctng (cert_rid crt1) (SpecClient.relied_on crt1 ++ [mkloginfo g pr]))) ->
    exists s' final, w_cas (wrun z x S Wp (lh ++ [EDeliver i2 m2])) !! ca = Some s' /\ final ∈ CA.sign_all x c s' /\ same_subject final crt /\ c_issuer_cn final = ca /\
      forall l5, let l := (lp ++ EPublish lg t t1 t2 :: lh ++ EDeliver i2 m2 :: l5)%list in
      good_period z x S T p Gs W0 l -> (exists u, arrives z x S W0 l (ToGossip u g) /\ is_Some (sy_gossipers S !! u)) ->
      forall mon mc cl ccl sc n flag, ready z x S p Gs W0 l mon mc cl ccl sc -> p = pad2 n ->
      cc_sign_scheme ccl = "rsa" -> cc_rsa_pubs ccl !! Logger.lc_signer lc = Some pk -> ~ SpecClient.convicted sc (Logger.lc_signer lc) ->
      (forall i, i ∈ SpecClient.relied_on final -> verify ccl (li_sth i) <> Panics) -> known_unrevoked z x S W0 l sc ca final ->
      exists sc', w_clients (wrun z x S W0 (l ++ period_end_and_load mon n cl ("Period_" ++ itoa (Z.of_nat n - Monitor.mc_offset mc)) flag)) !! cl = Some sc' /\
        Client.check_certificate ccl sc' final = Accept.
Proof.
  intros W0 Hagg Hperm Hdeser Hc Hsig Hlg Hto Hback Hsch Hpk Hne Hpl Hok Hstd Hname Hh l0 ds s0 crt Hs0 Hnd Hin Hfresh.
  intros l1 i m l2 t t1 t2 sl lb lp Hmail Hnew Hnp Hsl Hlen Huniq Hups Wp.
  destruct (issued_included z x S p sec st lt ct ca c cc lg lc pk Hc Hsig Hlg Hto Hback Hsch Hpk Hne Hpl Hok Hstd Hname Hh l0 ds s0 crt Hs0 Hnd Hin Hfresh) as [_ H].
  assert (lb = ((l0 ++ [EIssue ca ds]) ++ l1)%list) as Elb by (unfold lb; by rewrite app_assoc).
  specialize (H l1 i m l2 t t1 t2 sl). cbn zeta in H. fold W0 in H. rewrite <- Elb in H. change (lb ++ EDeliver i m :: l2)%list with lp in H. fold Wp in H.
  destruct (H Hmail Hnew Hnp Hsl Hlen Huniq Hups) as (g & pr & sl' & A1 & A2 & A3 & A4 & A5 & A6 & A7 & A8 & A9 & K).
  exists g, pr. split; [exact A8|]. split; [exact A9|]. split; [by exists sl'|]. split; [exact A6|].
  intros l3 i1 m1 l4 i2 m2 lh Hnper Hm1 Hm2 Hniss Hother Hfirst.
  destruct (K l3 i1 m1 l4 i2 m2 Hnper Hm1 Hm2 Hniss Hother) as (s & crt1 & B1 & B2 & B3 & F).
  destruct (Hfirst s crt1 B1 B2) as [Hf1 Hf2].
  destruct (F Hf1 Hf2) as (s' & crt2 & final & F1 & F2 & F3 & F4 & F5 & F6 & F7 & F8 & F9).
  exists s', final. split; [exact F1|]. split; [exact F4|]. split; [exact F5|]. split; [exact F6|].
  intros l5 l HG (u & Hu & Hu') mon mc cl ccl sc n flag HR Hn Hcs Hck Hnc Hpan Hrev.
  destruct HG as [G1 G2 G3 G4 G5 G6 G7 G8 G9 G10]. destruct HR as [(w & cg & R1 & R1') (mu & R2) (sm & R3) R4 R5 R6 R7 R8 R9]. subst mon.
  apply (certificate_accepted z x S T p sec st lt ct Gs l G1 G2 Hagg Hperm Hdeser G3 G4 Hh G5 G6 G7 G8 G9 G10 w cg mc mu sm R1 R2 R3 R4 n cl ccl sc flag Hn R5 R6 R7 R8 R9 final Hpan).
  - exists (mkloginfo g pr), u. cbn [li_sth]. split_and!; auto.
    + rewrite F8, F3. apply elem_of_app. right. by left.
    + by rewrite A4.
  - rewrite F6. exact Hrev.
Qed.
