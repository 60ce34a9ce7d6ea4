(** Facts about the functions of Extras.v. *)
From Verif Require Import Bytes Hex Base64 Json Types Crypto Verify Cert CertPool Bitset CTngExt Revocation Clock Logger CA Monitor Extras
  SpecCodec SpecCert SpecLogger SpecCA SpecExtras JsonFacts WireFacts VerifyFacts CertFacts LoggerFacts CAFacts CARidFacts CAPoiFacts MonitorMore.
From Coq Require Import Lia.
Open Scope string_scope.

Lemma in_list_spec x l : in_list x l = true <-> x ∈ l.
Proof.
  induction l as [|i l IH]; cbn; [split; [done|intros H; by apply elem_of_nil in H]|].
  rewrite elem_of_cons. destruct (String.eqb_spec i x); [split; [by left|done]|].
  rewrite IH. split; [by right|]. intros [->|H]; done.
Qed.

Section logger.
Context {P : prims}.

Lemma precert_exact cas (keys : gmap string (rsa_pub P)) c : verify_precert cas keys c = true <->
  c_issuer_cn c ∈ cas /\ exists pk, keys !! c_issuer_cn c = Some pk /\ rsa_check pk (c_tbs c) (c_sig c) = true.
Proof.
  unfold verify_precert. rewrite <- in_list_spec. destruct (in_list (c_issuer_cn c) cas); [|split; [done|by intros [? _]]].
  destruct (keys !! c_issuer_cn c) as [pk|]; [|split; [done|by intros (_ & ? & ? & _)]].
  split; [eauto|]. by intros (_ & ? & [= ->] & ?).
Qed.

Context (x : x509lib) (z : gzip) (c : caconf P) (cc : cconf P).
Lemma root_stays l : forall s, a_root (ca_run x z c cc s l) = a_root s.
Proof.
  induction l as [|e l IH]; intros s; [done|]. change (ca_run x z c cc s (e :: l)) with (ca_run x z c cc (ca_step x z c cc s e) l).
  rewrite IH. destruct e; cbn; try done.
  - unfold receive_sth. by destruct (verify cc g).
  - unfold receive_poi. by destruct (get_by_ski (a_pool s) (poi_ski p)).
  - unfold request_rev. by destruct (Z.eqb (a_type s) 0).
Qed.

Lemma generated_signed root offset ds : forall i n f, f ∈ generate_n x c root offset i n ds ->
  c_issuer_cn f = c_subject_cn root /\ c_sig f = rsa_sign (cac_key c) (c_tbs f).
Proof.
  induction ds as [|d ds IH]; intros i n f Hf; [by apply elem_of_nil in Hf|]. cbn [generate_n] in Hf.
  apply elem_of_cons in Hf as [->|Hf]; [done|]. by apply IH in Hf.
Qed.

Lemma issued_pass ty k d1 d2 l cas (keys : gmap string (rsa_pub P)) pk f :
  f ∈ all_issued x z c cc (ca_init x c ty k d1 d2) l ->
  cac_signer c ∈ cas -> keys !! cac_signer c = Some pk -> (forall m, rsa_check pk m (rsa_sign (cac_key c) m) = true) ->
  verify_precert cas keys f = true.
Proof.
  intros Hf Hc Hk Hr. apply precert_exact.
  assert (c_issuer_cn f = cac_signer c /\ c_sig f = rsa_sign (cac_key c) (c_tbs f)) as [-> ->]; [|eauto].
  assert (forall s, a_root s = a_root (ca_init x c ty k d1 d2) -> f ∈ all_issued x z c cc s l ->
    c_issuer_cn f = cac_signer c /\ c_sig f = rsa_sign (cac_key c) (c_tbs f)) as H; [|by eapply H].
  clear Hf. induction l as [|e l IH]; intros s Hs Hf; [by apply elem_of_nil in Hf|]. cbn [all_issued] in Hf.
  apply elem_of_app in Hf as [Hf|Hf].
  - destruct e; cbn in Hf; try by apply elem_of_nil in Hf. apply generated_signed in Hf as [-> ->]. by rewrite Hs.
  - eapply IH; [|exact Hf]. rewrite <- Hs. apply (root_stays [e]).
Qed.
End logger.

(** ** Stored objects *)
Lemma objs_roundtrip l : objs_unmarshal (objs_marshal l) = Some l.
Proof. unfold objs_unmarshal, objs_marshal. rewrite parse_json_print by apply wf_objs. apply dec_objs_json. Qed.

Lemma put_all_lookup l : forall m i, put_all m l !! i = match last_with i l with Some g => Some g | None => m !! i end.
Proof.
  induction l as [|g l IH] using rev_ind; intros m i; [done|]. unfold put_all, last_with in *. rewrite fold_left_app, rev_app_distr. cbn.
  destruct (bool_decide_reflect (get_id g = i)) as [<-|Hne]; [by rewrite lookup_insert|].
  rewrite lookup_insert_ne by done. apply IH.
Qed.

Lemma loaded s name l s' ok i : name ∈ loadable -> load_one_storage s name (Some (objs_marshal l)) = (s', ok) ->
  get_object s' i = if String.eqb (i_type i) name
                    then match last_with i l with Some g => g | None => get_object s i end else get_object s i.
Proof.
  intros Hn. unfold load_one_storage. rewrite objs_roundtrip. destruct s as [temp con acc con_d acc_d sth rev crv timers files].
  intros [= <- _]. unfold loadable in Hn.
  assert (exists k, name = okind_type k /\ kind_of name = KObj k /\ match k with OCon | OFull _ => True | _ => False end) as (k & -> & Ek & Hk).
  { repeat (apply elem_of_cons in Hn as [->|Hn]); [exists OCon|exists (OFull Acc)|exists (OFull Sth)|exists (OFull Rev)|by apply elem_of_nil in Hn]; done. }
  rewrite Ek. destruct (String.eqb_spec (i_type i) (okind_type k)) as [E|E].
  - unfold get_object. rewrite E, Ek. destruct k as [|  |[]]; try done; cbn; rewrite put_all_lookup; by destruct (last_with i l).
  - unfold get_object. destruct (kind_of (i_type i)) as [k'| |] eqn:Ek'; [|by destruct k as [| |[]]..].
    pose proof (kind_of_spec (i_type i)) as Hs. rewrite Ek' in Hs. destruct (decide (k = k')) as [->|Hkk]; [done|]. destruct k as [| |[]], k' as [[]| |[]]; done.
Qed.

Lemma load_fails s name l : snd (load_one_storage s name (Some (objs_marshal l))) = false.
Proof. unfold load_one_storage. rewrite objs_roundtrip. by destruct s. Qed.

Lemma load_bad s name b : (forall t, b = Some t -> objs_unmarshal t = None) -> load_one_storage s name b = (s, false).
Proof. intros H. destruct b as [t|]; [|done]. cbn. by rewrite (H t). Qed.

Lemma fetched_iff r c : fetch_certificate r = Got (Some c) <-> exists l, r = Tls (Some c :: l).
Proof.
  split; [|by intros [l ->]]. destruct r as [| |[|[d|] l]]; try done. intros [= ->]. eauto.
Qed.
