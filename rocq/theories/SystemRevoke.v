(** What a CA revokes, from the CA to the clients. *)
From Verif Require Import Bytes Hex Json Types Crypto Verify Bitset Cert CertPool CTngExt Revocation Clock Prog Gossiper Network Overlap System SpecVerify SpecGossiper SpecCodec SpecCA SpecNetwork SpecOverlap SpecSystem SpecSystemDetect SpecSystemDeliver SystemFacts SystemRuns SystemDeliver.
From Verif Require Logger CA Monitor Client SpecClient ClientFacts ClientMore CAFacts BitsetFacts RevocationFacts.
From Coq Require Import Lia.
Open Scope string_scope.

Section ca.
Context {P : prims} (z : gzip) (x : CA.x509lib) (S : sysconf P).
Notation wrun := (wrun z x S).
Notation wstep := (wstep z x S).

(** What an event of the system is to the CA [e]. *)
Definition ca_part (e : string) (W : world) (ev : wevent) : list CA.caevent :=
  let mine u (l : list CA.caevent) := if String.eqb u e then l else [] in
  match ev with
  | EDeliver i m =>
      match w_mail W !! i with
      | Some (Head u g) => mine u [CA.CSth g]
      | Some (Proof_ u p) => mine u [CA.CPoi p]
      | Some (Query _ Rev u) => mine u [CA.CAsk m]
      | _ => []
      end
  | EIssue u ds => mine u [CA.CIssue ds]
  | ERevoke u i => mine u [CA.CRevoke i]
  | ECaPeriod u rs m => mine u [CA.CPeriod rs m]
  | _ => []
  end.

Context (e : string) (c : CA.caconf P) (cc : cconf P) (Hc : sy_cas S !! e = Some (c, cc)).

Lemma mon_event_cas W mon ev : w_cas (mon_event z S W mon ev) = w_cas W.
Proof using. unfold mon_event. destruct (sy_monitors S !! mon) as [[c' u]|]; [|done]. destruct (w_mons W !! mon); [|done]. by destruct (Monitor.mstep _ _ _ _) as [[s' o]|]. Qed.

Lemma ca_part_step W ev s : w_cas W !! e = Some s -> w_cas (wstep W ev) !! e = Some (CA.ca_run x z c cc s (ca_part e W ev)).
Proof using Hc.
  intros Hs. unfold CA.ca_run.
  destruct ev as [i m|i|y|p|ev|u|lg t t1 t2|lg|ca ds|ca n|ca rs m|mon ev|cl mon dir flag]; cbn [System.wstep ca_part].
  - destruct (w_mail W !! i) as [y|]; [|done]. destruct y as [lg crt|ca g|ca p|mon f url|mon f url r|u g|mon g]; cbn [receive].
    + cbn. by destruct (w_loggers W !! lg).
    + cbn. destruct (String.eqb_spec ca e) as [->|Hn].
      * rewrite Hc, Hs. cbn. by rewrite lookup_insert.
      * destruct (sy_cas S !! ca) as [[? ?]|]; [|done]. destruct (w_cas W !! ca); [|done]. cbn. by rewrite lookup_insert_ne.
    + cbn. destruct (String.eqb_spec ca e) as [->|Hn].
      * rewrite Hs. cbn. by rewrite lookup_insert.
      * destruct (w_cas W !! ca); [|done]. cbn. by rewrite lookup_insert_ne.
    + destruct f; cbn.
      * by repeat case_match.
      * destruct (String.eqb_spec url e) as [->|Hn].
        -- rewrite Hs. cbn. destruct (CA.request_rev s m) as [s' r]. cbn. by rewrite lookup_insert.
        -- destruct (w_cas W !! url) as [su|]; [|done]. destruct (CA.request_rev su m). cbn. by rewrite lookup_insert_ne.
      * done.
    + by rewrite mon_event_cas.
    + done.
    + by rewrite mon_event_cas.
  - by destruct (w_mail W !! i).
  - done.
  - done.
  - by destruct (inner_event ev).
  - done.
  - destruct (sy_loggers S !! lg); [|done]. destruct (w_loggers W !! lg); [|done]. by repeat case_match.
  - by destruct (w_loggers W !! lg).
  - destruct (String.eqb_spec ca e) as [->|Hn].
    + rewrite Hc, Hs. cbn. destruct (CA.issue x c s ds) as [[s' ?] ms]. cbn. by rewrite lookup_insert.
    + destruct (sy_cas S !! ca) as [[? ?]|]; [|done]. destruct (w_cas W !! ca); [|done]. destruct (CA.issue _ _ _ _) as [[? ?] ?]. cbn. by rewrite lookup_insert_ne.
  - unfold ca_event. destruct (String.eqb_spec ca e) as [->|Hn].
    + rewrite Hc, Hs. cbn. by rewrite lookup_insert.
    + destruct (sy_cas S !! ca) as [[? ?]|]; [|done]. destruct (w_cas W !! ca); [|done]. cbn. by rewrite lookup_insert_ne.
  - unfold ca_event. destruct (String.eqb_spec ca e) as [->|Hn].
    + rewrite Hc, Hs. cbn [set_cas w_cas fold_left]. by rewrite lookup_insert.
    + destruct (sy_cas S !! ca) as [[? ?]|]; [|done]. destruct (w_cas W !! ca); [|done]. cbn [set_cas w_cas fold_left]. by rewrite lookup_insert_ne.
  - destruct (own_event ev); [|done]. by rewrite mon_event_cas.
  - destruct (sy_clients S !! cl); [|done]. destruct (w_clients W !! cl); [|done]. destruct (w_mons W !! mon); [|done].
    destruct (_ ≫= _); [|done]. by destruct (Client.handle_update _ _ _ _ _).
Qed.

Lemma ca_part_revoke W ev i : CA.CRevoke i ∈ ca_part e W ev <-> ev = ERevoke e i.
Proof using.
  split.
  - destruct ev as [j m| | | | | | | |ca ds|ca n|ca rs m| |]; cbn; try (by intros ?%elem_of_nil).
    + destruct (w_mail W !! j) as [[]|]; try (by intros ?%elem_of_nil); try (destruct (String.eqb _ _); [intros H%elem_of_list_singleton; discriminate|by intros ?%elem_of_nil]).
      destruct f; try (by intros ?%elem_of_nil). destruct (String.eqb _ _); [intros H%elem_of_list_singleton; discriminate|by intros ?%elem_of_nil].
    + destruct (String.eqb _ _); [intros H%elem_of_list_singleton; discriminate|by intros ?%elem_of_nil].
    + destruct (String.eqb_spec ca e) as [->|]; [intros [= ->]%elem_of_list_singleton; done|by intros ?%elem_of_nil].
    + destruct (String.eqb _ _); [intros H%elem_of_list_singleton; discriminate|by intros ?%elem_of_nil].
  - intros ->. cbn. rewrite String.eqb_refl. by left.
Qed.
Lemma ca_part_period W ev rs m : CA.CPeriod rs m ∈ ca_part e W ev <-> ev = ECaPeriod e rs m.
Proof using.
  split.
  - destruct ev as [j m'| | | | | | | |ca ds|ca n|ca rs' m'| |]; cbn; try (by intros ?%elem_of_nil).
    + destruct (w_mail W !! j) as [[]|]; try (by intros ?%elem_of_nil); try (destruct (String.eqb _ _); [intros H%elem_of_list_singleton; discriminate|by intros ?%elem_of_nil]).
      destruct f; try (by intros ?%elem_of_nil). destruct (String.eqb _ _); [intros H%elem_of_list_singleton; discriminate|by intros ?%elem_of_nil].
    + destruct (String.eqb _ _); [intros H%elem_of_list_singleton; discriminate|by intros ?%elem_of_nil].
    + destruct (String.eqb _ _); [intros H%elem_of_list_singleton; discriminate|by intros ?%elem_of_nil].
    + destruct (String.eqb_spec ca e) as [->|]; [intros [= -> ->]%elem_of_list_singleton; done|by intros ?%elem_of_nil].
  - intros ->. cbn. rewrite String.eqb_refl. by left.
Qed.

(** A CA in the system goes through a history of a CA, with the revocations and period ends of the system's history. *)
Lemma ca_history W0 s0 l : w_cas W0 !! e = Some s0 -> exists ces, w_cas (wrun W0 l) !! e = Some (CA.ca_run x z c cc s0 ces) /\
  (forall i, CA.CRevoke i ∈ ces <-> ERevoke e i ∈ l) /\ (forall rs m, CA.CPeriod rs m ∈ ces <-> ECaPeriod e rs m ∈ l).
Proof using Hc.
  intros H0. induction l as [|ev l (ces & E & E1 & E2)] using rev_ind.
  - exists []. split; [done|]. split; intros; by rewrite !elem_of_nil.
  - exists (ces ++ ca_part e (wrun W0 l) ev)%list. rewrite wrun_app. cbn [fold_left System.wrun]. rewrite (ca_part_step _ ev _ E). split.
    { unfold CA.ca_run. by rewrite fold_left_app. }
    split; intros; rewrite !elem_of_app, elem_of_list_singleton.
    + rewrite E1, ca_part_revoke. split; intros [?|?]; auto.
    + rewrite E2, ca_part_period. split; intros [?|?]; auto.
Qed.

Lemma run_ev W0 s l ev : w_cas (wrun W0 l) !! e = Some s -> w_cas (wrun W0 (l ++ [ev])) !! e = Some (CA.ca_run x z c cc s (ca_part e (wrun W0 l) ev)).
Proof using Hc. intros H. rewrite wrun_app. cbn. by apply ca_part_step. Qed.

(** The first revocation object of a CA. *)
Theorem first_object a b d lt ct la rs m : let W0 := world_init x S a b d lt ct in gzip_ok z ->
  (forall rs' m', ECaPeriod e rs' m' ∉ la) -> (forall i, ERevoke e i ∈ la \/ i ∈ rs -> index_ok i) ->
  exists sa r, w_cas (wrun W0 (la ++ [ECaPeriod e rs m])) !! e = Some sa /\ CA.a_rev sa !! unpadded (Datatypes.S m) = Some r /\
    g_type r = REV_INIT /\ g_p0 r = CA.cac_signer c /\ g_period r = unpadded (Datatypes.S m) /\
    (forall i, revokes (snd (srh_and_dcrv z r)) i <-> i ∈ rs \/ ERevoke e i ∈ la) /\
    (plain_id (CA.cac_self c) = true -> forall (cc' : cconf P) pk, cc_rsa_pubs cc' !! CA.cac_self c = Some pk -> (forall t, rsa_check pk t (rsa_sign (CA.cac_key c) t) = true) ->
       verify_srh cc' (fst (srh_and_dcrv z r)) (snd (srh_and_dcrv z r)) None (g_period r) = Accept).
Proof using Hc.
  intros W0 Hz Hn Hi.
  assert (exists ty k d1 d2, w_cas W0 !! e = Some (CA.ca_init x c ty k d1 d2)) as (ty & k & d1 & d2 & H0).
  { unfold W0, world_init. cbn [w_cas]. rewrite map_lookup_imap, Hc. cbn. destruct (ct e) as [[[ty k] d1] d2]. eauto 10. }
  destruct (ca_history W0 _ la H0) as (ces & E & E1 & E2).
  pose proof (run_ev W0 _ la (ECaPeriod e rs m) E) as E'. cbn [ca_part] in E'. rewrite String.eqb_refl in E'.
  assert (no_period ces) as Hnp by (intros p m' Hin; apply E2 in Hin; by eapply Hn).
  assert (indexes_ok (ces ++ [CA.CPeriod rs m])) as Hok.
  { split.
    - intros i [Hin%E1|Hin]%elem_of_app; [apply Hi; by left|]. apply elem_of_list_singleton in Hin. discriminate.
    - intros p m' [Hin|Hin]%elem_of_app i Hip; [by edestruct Hnp|]. apply elem_of_list_singleton in Hin as [= -> ->]. apply Hi. by right. }
  eexists _, _. split; [exact E'|]. unfold CA.ca_run at 1. cbn [fold_left CA.ca_step CA.ca_end_period CA.a_rev]. split; [apply lookup_insert|].
  split; [reflexivity|]. split; [reflexivity|]. split; [reflexivity|]. split.
  - intros i. pose proof (CAFacts.published_exactly x z c cc ty k d1 d2 ces rs m [] i Hz Hnp Hok) as X.
    rewrite CAFacts.published_app in X. destruct (CAFacts.run_before x z c cc ces (CA.ca_init x c ty k d1 d2) Hnp) as (_ & _ & _ & Hnone). rewrite Hnone in X.
    cbn [CA.all_published CA.ca_published app deltas map] in X. unfold Logger.obj_at in X. unfold CA.ca_end_period in X. cbn [CA.a_rev] in X. rewrite lookup_insert in X.
    rewrite <- (E1 i), <- X. split.
    + intros Hr. eexists. split; [by left|]. exact Hr.
    + intros (d' & Hd & Hr). apply elem_of_list_singleton in Hd as ->. exact Hr.
  - intros Hpl cc' pk Hpk Hsig.
    destruct (CAFacts.run_before x z c cc ces (CA.ca_init x c ty k d1 d2) Hnp) as (B1 & B2 & B3 & _).
    set (s := CA.ca_run x z c cc (CA.ca_init x c ty k d1 d2) ces) in *.
    assert (CA.a_fresh s = true) as C3 by exact B3. assert (v_pre (CA.a_crv s) = Some (bs_new crv_size)) as C2 by exact B2. rewrite C3.
    destruct (CAFacts.mass_cur rs (CA.a_crv s)) as [M1 M2].
    assert (CAFacts.cur_ok (v_cur (crv_mass_revoke (CA.a_crv s) rs))) as Hcur.
    { rewrite M1, B1. apply CAFacts.cur_ok_sets; [apply CAFacts.cur_ok_sets; [apply CAFacts.cur_ok_new|]|].
      - intros i H. apply Hok. apply elem_of_app. left. by apply CAFacts.singles_in.
      - eapply Hok. apply elem_of_app. right. by left. }
    assert (crv_delta (crv_mass_revoke (CA.a_crv s) rs) = v_cur (crv_mass_revoke (CA.a_crv s) rs)) as Ed.
    { unfold crv_delta. rewrite M2, C2. apply BitsetFacts.bs_symdiff_new, Hcur. }
    assert (BitsetFacts.bs_ok (crv_delta (crv_mass_revoke (CA.a_crv s) rs))) as Hbs by (rewrite Ed; by apply CAFacts.cur_ok_ok).
    pose proof (RevocationFacts.generated_decodes z (CA.cac_key c) (CA.cac_self c) (CA.cac_signer c) (crv_mass_revoke (CA.a_crv s) rs) (CA.a_online s) (unpadded (Datatypes.S m)) false Hz Hbs) as G.
    rewrite G. cbn [fst snd].
    erewrite RevocationFacts.verify_srh_signed by done. cbn [revocation_delta generate_revocation g_period default].
    change (default ?q None) with q. rewrite Ed, Hsig. done.
Qed.
End ca.

(** ** At the clients *)
Section client.
Context {P : prims} (z : gzip) (x : CA.x509lib) (S : sysconf P).

(** What a client has recorded of a CA stays. *)
Lemma client_step W ev cl s' ca v : (forall s, w_clients W !! cl = Some s -> Client.cl_crv s !! ca = Some v) ->
  w_clients (wstep z x S W ev) !! cl = Some s' -> Client.cl_crv s' !! ca = Some v.
Proof.
  intros H. assert (forall W', w_clients W' = w_clients W -> w_clients W' !! cl = Some s' -> Client.cl_crv s' !! ca = Some v) as Hk by (intros W' ->; apply H).
  assert (forall W' mon me, w_clients W' = w_clients W -> w_clients (mon_event z S W' mon me) = w_clients W) as Hm.
  { intros W' mon me E. unfold mon_event. destruct (sy_monitors S !! mon) as [[? ?]|]; [|done]. destruct (_ !! mon); [|done]. by destruct (Monitor.mstep _ _ _ _) as [[? ?]|]. }
  destruct ev as [i m|i|y|p|ev|u|lg t t1 t2|lg|ca' ds|ca' n|ca' rs m|mon ev|cl' mon dir flag]; cbn [wstep]; try (by apply Hk).
  - destruct (w_mail W !! i) as [y|]; [|by apply Hk]. apply Hk. destruct y as [lg crt|ca' g|ca' p|mon f url|mon f url r|u g|mon g]; cbn [receive]; try (by apply Hm); try (unfold ask; by repeat case_match).
  - apply Hk. by destruct (w_mail W !! i).
  - apply Hk. by destruct (inner_event ev).
  - apply Hk. by repeat case_match.
  - apply Hk. by repeat case_match.
  - apply Hk. by repeat case_match.
  - apply Hk. unfold ca_event. by repeat case_match.
  - apply Hk. unfold ca_event. by repeat case_match.
  - apply Hk. destruct (own_event ev); [|done]. by apply Hm.
  - destruct (sy_clients S !! cl') as [cc|]; [|by apply Hk]. destruct (w_clients W !! cl') as [s|] eqn:Es; [|by apply Hk]. destruct (w_mons W !! mon); [|by apply Hk].
    destruct (_ ≫= _) as [u|]; [|by apply Hk]. destruct (Client.handle_update z cc s flag u) as [s1 o] eqn:Eu. cbn.
    assert (Client.cl_crv s1 !! ca = Some v \/ cl <> cl') as Hv.
    { destruct (decide (cl = cl')) as [->|]; [left|by right]. eapply ClientFacts.vector_kept; [exact Eu|by apply H]. }
    destruct o; try (rewrite lookup_insert_Some; intros [[-> <-]|[_ Hs]]; [by destruct Hv|by apply H]).
    rewrite lookup_delete_Some. intros [_ Hs]. by apply H.
Qed.
Lemma client_run W l cl ca v : (forall s, w_clients W !! cl = Some s -> Client.cl_crv s !! ca = Some v) ->
  forall s', w_clients (wrun z x S W l) !! cl = Some s' -> Client.cl_crv s' !! ca = Some v.
Proof.
  revert W. induction l as [|ev l IH]; intros W H; [exact H|]. cbn. apply IH. intros s Hs. by eapply client_step.
Qed.

(** A certificate that a delivered revocation object revokes is never accepted again. *)
Theorem revoked_rejected T p sec st lt ct Gs l :
  let W0 := world_init x S p sec st lt ct in let cfgs := sy_gossipers S in
  honest_network cfgs T -> valid_statements cfgs p Gs -> agg_correct P -> fast_perm P -> (forall sg : bls_sig P, bls_deser (bls_ser sg) = Some sg) ->
  (forall u c, cfgs !! u = Some c -> NoDup (gc_neighbours c)) -> T <= 2 \/ no_fragment_twice p (w_net (wrun z x S W0 l)) Gs ->
  one_period l -> clocks_in p l -> monitors_undisturbed l -> (forall w h, arrives z x S W0 l (ToGossip w h) -> h ∈ Gs) ->
  oquiescent (w_net (wrun z x S W0 l)) -> reports_arrived z x S W0 l ->
  forall w c mc mu s, cfgs !! w = Some c -> sy_monitors S !! gc_owner c = Some (mc, mu) -> w_mons (wrun z x S W0 l) !! gc_owner c = Some s ->
  (forall m, EMonitor (gc_owner c) (Monitor.MWipe m) ∈ l -> pad2 m = p) ->
  forall m cl cc sc flag, p = pad2 m -> sy_clients S !! cl = Some cc -> knows_gossipers cfgs cc -> w_clients (wrun z x S W0 l) !! cl = Some sc -> SpecClient.idle sc ->
  (forall h, h ∈ Gs -> usable z cc sc h) ->
  forall u r crt, arrives z x S W0 l (ToGossip u r) -> is_Some (cfgs !! u) -> g_type r = REV_INIT -> Client.cl_crv sc !! g_p0 r = None ->
  c_issuer_cn crt = g_p0 r -> SpecClient.revoked_in (snd (srh_and_dcrv z r)) crt ->
  let l' := (l ++ period_end_and_load (gc_owner c) m cl ("Period_" ++ itoa (Z.of_nat m - Monitor.mc_offset mc)) flag)%list in
  is_Some (w_clients (wrun z x S W0 l') !! cl) /\
  forall l2 s2, w_clients (wrun z x S W0 (l' ++ l2)) !! cl = Some s2 ->
    Client.check_certificate cc s2 crt <> Accept /\
    ((forall i, i ∈ SpecClient.relied_on crt -> SpecClient.harmless cc s2 i) -> Client.check_certificate cc s2 crt = Reject).
Proof.
  intros W0 cfgs HN HG Hagg Hperm Hdeser Hnb HT Hone Hcl Hmu Hst HQ Hrep w c mc mu s Hw Hm Hs Hwipe m cl cc sc flag Hp Hcc HK Hsc Hid Huse u r crt Ha Hu Ht Hnone Hiss Hrv l'.
  destruct (client_gets z x S T p sec st lt ct Gs l HN HG Hagg Hperm Hdeser Hnb HT Hone Hcl Hmu Hst HQ Hrep w c mc mu s Hw Hm Hs Hwipe m cl cc sc flag Hp Hcc HK Hsc Hid Huse) as (s' & H1 & H2 & H3 & H5 & H4).
  destruct (H4 u r Ha Hu) as [_ B]. specialize (B Ht). rewrite Hnone in B. cbn in B.
  split; [exists s'; exact H1|]. intros l2 s2 Hs2. apply (ClientMore.revoked_not_accepted cc s2 crt (snd (srh_and_dcrv z r))); [|done]. rewrite Hiss.
  rewrite wrun_app in Hs2. eapply client_run; [|exact Hs2]. intros s1 Hs1.
  assert (Some s' = Some s1) as E by (etransitivity; [symmetry; exact H1|exact Hs1]). injection E as <-. exact B.
Qed.
End client.
