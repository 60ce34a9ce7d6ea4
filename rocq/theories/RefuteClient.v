(** Concrete clients, and counterexamples about them. *)
From Verif Require Import Bytes Hex Base64 Json Types Crypto Verify Merkle Cert CTngExt Bitset Revocation Monitor Clock Logger Toy
  WireFacts MonitorMore RefuteLogger RefuteCA RefuteMonitor SpecCodec SpecVerify VerifyFacts SpecLogger LoggerFacts Client SpecClient ClientFacts ClientMore.
Open Scope string_scope.

(** ** A small world: logger 9100, CA 9000, gossipers g1 and g2, and a client *)
Definition toy_clc : cconf toy := toy_cc "client" 0.
Definition two_certs : list cert := [toy_cert "s1" "k1" 1; toy_cert "s2" "k2" 2].
Definition head_at (l : list cert) (m : nat) : gobj :=
  match build_tree toy_logger l (at_min m) m with Some (g, _, _) => g | None => zero_obj end.
Definition root_at (l : list cert) (m : nat) : string :=
  match build_tree toy_logger l (at_min m) m with Some (_, r, _) => r | None => "" end.
Definition pois_at (l : list cert) (m : nat) : list poi :=
  match build_tree toy_logger l (at_min m) m with Some (_, _, p) => p | None => [] end.
Definition poi_at (l : list cert) (m n : nat) : poi := default zero_poi (pois_at l m !! n).

(** The same head, threshold-signed, in the padded period. *)
Definition agreed (g : gobj) (m : nat) : gobj := toy_full STH_FULL (pad2 m) (g_p0 g) (g_p1 g) (g_p2 g).
(** A threshold-signed revocation object of the CA; [whole] is what it adds up to. *)
Definition toy_rev (period : string) (whole d : bitset) : gobj :=
  toy_full REV_FULL period "localhost:9000" "CRV"
    (rev_marshal (mkrev period (bs_marshal d) (rsa_sign_string (P:=toy) "k3" "localhost:9000" (srh_message (P:=toy) period whole d)))).
Definition none_revoked : bitset := bs_new 16.
Definition first_rev (m : nat) : gobj := toy_rev (pad2 m) none_revoked none_revoked.
Definition carrying (crt : cert) (rid : Z) (l : list loginfo) : cert := set_exts crt [mkext OID_CTNG false (encode_ctng (mkctng rid l))].
Definition toy_upd (sths revs cons accs : list gobj) : update := mkupd sths revs cons accs "m1" "12".

(** The certificate "s1" with the head and proof of logger 9100, and the update that makes a client accept it. *)
Definition good_info (m : nat) : loginfo := mkloginfo (head_at two_certs m) (poi_at two_certs m 0).
Definition good_cert (m : nat) : cert := carrying (toy_cert "s1" "k1" 1) 3 [good_info m].
Definition good_upd (m : nat) : update := toy_upd [agreed (head_at two_certs m) m] [first_rev m] [] [].

Definition after (s : clst) (u : update) : clst := fst (handle_update toy_z toy_clc s true u).
Definition result (s : clst) (u : update) : outcome := snd (handle_update toy_z toy_clc s true u).
Definition good_client (m : nat) : clst := after fresh_client (good_upd m).

Lemma is_some_false {A} (x : option A) : (match x with Some _ => true | None => false end) = false -> ~ is_Some x.
Proof. destruct x; [done|]. by intros _ [? ?]. Qed.
Lemma good_applied : result fresh_client (good_upd 12) = Applied.
Proof. vm_compute. reflexivity. Qed.
Lemma good_accepted : check_certificate toy_clc (good_client 12) (good_cert 12) = Accept.
Proof. vm_compute. reflexivity. Qed.
Lemma good_heads : relied_on (good_cert 12) = [good_info 12].
Proof. vm_compute. reflexivity. Qed.

(** C46, C74: one tree head with a signature of a stranger, and the client stops. *)
Definition stranger_info : loginfo := mkloginfo (toy_init STH_INIT "12" "kx" "localhost:9999" "a" "") zero_poi.
Definition mixed_cert : cert := carrying (toy_cert "s1" "k1" 1) 3 [good_info 12; stranger_info].
Lemma stranger_kills : check_certificate toy_clc (good_client 12) mixed_cert = Panics /\ vouches toy_clc (good_client 12) mixed_cert (good_info 12) /\
  good_info 12 ∈ relied_on mixed_cert.
Proof.
  split; [vm_compute; reflexivity|]. split.
  - apply faulty_false; [done|]. vm_compute. reflexivity.
  - assert (relied_on mixed_cert = [good_info 12; stranger_info]) as -> by (vm_compute; reflexivity). by left.
Qed.

(** C46: the issuer published nothing yet. *)
Lemma no_vector_kills : exists s, result fresh_client (toy_upd [agreed (head_at two_certs 12) 12] [] [] []) = Applied /\
  s = after fresh_client (toy_upd [agreed (head_at two_certs 12) 12] [] [] []) /\
  check_certificate toy_clc s (good_cert 12) = Panics.
Proof. eexists. split; [vm_compute; reflexivity|]. split; [reflexivity|]. vm_compute. reflexivity. Qed.

Section general.
Context {P : prims} (z : gzip) (c : cconf P).

Lemma unknown_issuer_panics s crt i : i ∈ relied_on crt -> vouches c s crt i -> (forall m, h_sha256 P m <> "") ->
  cl_crv s !! c_issuer_cn crt = None -> check_certificate c s crt = Panics.
Proof.
  intros I V Hh N. destruct (check_certificate c s crt) eqn:E; [|exfalso|done].
  - apply verdict_accept in E as (_ & _ & v & V' & _); [|done]. congruence.
  - apply verdict_reject in E as (_ & [X|(v & V' & _)]); [|congruence|done]. by destruct (X i I).
Qed.
End general.

(** C47: the second delta of a CA is applied, and ignored. *)
Definition revoked3 : bitset := bs_set none_revoked 3.
Definition second_rev : gobj := toy_rev "13" none_revoked revoked3.
Definition second_upd : update := toy_upd [] [second_rev] [] [].
Lemma second_ignored : let s := after (good_client 12) second_upd in
  result (good_client 12) second_upd = Applied /\
  second_rev ∈ u_revs second_upd /\ g_p0 second_rev = c_issuer_cn (good_cert 12) /\
  revoked_in (snd (srh_and_dcrv toy_z second_rev)) (good_cert 12) /\
  check_certificate toy_clc s (good_cert 12) = Accept.
Proof. split; [vm_compute; reflexivity|]. split; [by left|]. vm_compute. done. Qed.

(** An honest CA signs the vector that already contains the new revocations: the client refuses the object,
    and keeps the mutex. *)
Definition honest_second : update := toy_upd [] [toy_rev "13" revoked3 revoked3] [] [].
Lemma honest_refused : let s := after (good_client 12) honest_second in
  result (good_client 12) honest_second = Refused /\
  verify toy_clc (toy_rev "13" revoked3 revoked3) = Accept /\
  check_certificate toy_clc s (good_cert 12) = Accept /\ result s (toy_upd [] [] [] []) = Stuck.
Proof. vm_compute. done. Qed.

(** The first one is not. *)
Definition first_upd : update := toy_upd [agreed (head_at two_certs 12) 12] [toy_rev "12" revoked3 revoked3] [] [].
Lemma first_counts : result fresh_client first_upd = Applied /\
  revoked_in (snd (srh_and_dcrv toy_z (toy_rev "12" revoked3 revoked3))) (good_cert 12) /\
  c_issuer_cn (good_cert 12) = g_p0 (toy_rev "12" revoked3 revoked3) /\
  check_certificate toy_clc (after fresh_client first_upd) (good_cert 12) = Reject.
Proof. vm_compute. done. Qed.

(** C48: half an update. *)
Definition broken : gobj := toy_init STH_INIT "12" "wrong" "localhost:9100" "a" "".
Definition half_upd : update := toy_upd [agreed (head_at two_certs 12) 12; broken] [first_rev 12] [] [].
Lemma half_applied : let s := after fresh_client half_upd in
  result fresh_client half_upd = Refused /\ cl_crv s <> cl_crv fresh_client /\ cl_sth s <> cl_sth fresh_client /\
  result s (good_upd 13) = Stuck.
Proof.
  split; [vm_compute; reflexivity|]. split; [|split; [|vm_compute; reflexivity]].
  - intros H. apply (f_equal (λ m, match m !! "localhost:9000" with Some _ => true | None => false end)) in H. vm_compute in H. done.
  - intros H. apply (f_equal (λ m, match m !! "localhost:9100@12" with Some _ => true | None => false end)) in H. vm_compute in H. done.
Qed.

(** C49: a conviction. *)
Definition proof_upd : update := toy_upd [] [] [] [toy_acc_full].
Definition severe : clst := after (good_client 12) proof_upd.
Lemma severe_rejects : result (good_client 12) proof_upd = Applied /\ convicted severe "localhost:9100" /\
  check_certificate toy_clc severe (good_cert 12) = Reject.
Proof.
  split; [vm_compute; reflexivity|]. split; [|vm_compute; reflexivity].
  unfold convicted. apply is_some_true. vm_compute. reflexivity.
Qed.

(** ... gone after a restart. *)
Definition restart_history : list clevent := [KUpdate true (good_upd 12); KUpdate true proof_upd; KSave; KRestart].
Definition cl_to (l : list clevent) : clsys := match cl_run toy_z toy_clc clsys_new l with Some (y, _) => y | None => clsys_new end.
Definition cl_outs (l : list clevent) : list outcome := match cl_run toy_z toy_clc clsys_new l with Some (_, o) => o | None => [Died] end.
Definition cl_runs (l : list clevent) : bool := match cl_run toy_z toy_clc clsys_new l with Some _ => true | None => false end.
Lemma cl_to_lived l : cl_runs l = true -> lived toy_z toy_clc l (cl_to l) (cl_outs l).
Proof. unfold cl_runs, cl_to, cl_outs, lived. by destruct (cl_run toy_z toy_clc clsys_new l) as [[y o]|]. Qed.

Lemma forgotten : exists y os, lived toy_z toy_clc restart_history y os /\ os = [Applied; Applied; Applied; Applied] /\
  ~ convicted (cs_cl y) "localhost:9100" /\ check_certificate toy_clc (cs_cl y) (good_cert 12) = Accept.
Proof.
  exists (cl_to restart_history), (cl_outs restart_history). split; [apply cl_to_lived; vm_compute; reflexivity|].
  split; [vm_compute; reflexivity|]. split; [|vm_compute; reflexivity]. unfold convicted. apply is_some_false. vm_compute. reflexivity.
Qed.

(** ... and avoided with another value in the field [signer], which no signature covers. *)
Definition renamed (g : gobj) (sg : string) : gobj :=
  mkobj (g_app g) (g_period g) (g_type g) sg (g_signers g) (g_s0 g) (g_s1 g) (g_time g) (g_scheme g) (g_p0 g) (g_p1 g) (g_p2 g).
Definition renamed_cert : cert := carrying (toy_cert "s1" "k1" 1) 3 [mkloginfo (renamed (head_at two_certs 12) "somebody") (poi_at two_certs 12 0)].
Lemma renamed_accepted : convicted severe "localhost:9100" /\
  Forall (λ i, g_p0 (li_sth i) = "localhost:9100") (relied_on renamed_cert) /\
  check_certificate toy_clc severe renamed_cert = Accept.
Proof.
  split; [apply severe_rejects|]. split; [|vm_compute; reflexivity].
  assert (relied_on renamed_cert = [mkloginfo (renamed (head_at two_certs 12) "somebody") (poi_at two_certs 12 0)]) as -> by (vm_compute; reflexivity).
  by repeat constructor.
Qed.

(** C50: an honest logger's own tree head, listed as an accusation. *)
Definition frame_upd : update := toy_upd [] [] [] [head_at two_certs 12].
Lemma framed : result (good_client 12) frame_upd = Applied /\ g_type (head_at two_certs 12) = STH_INIT /\
  convicted (after (good_client 12) frame_upd) "localhost:9100" /\
  check_certificate toy_clc (after (good_client 12) frame_upd) (good_cert 12) = Reject.
Proof.
  split; [vm_compute; reflexivity|]. split; [vm_compute; reflexivity|]. split; [|vm_compute; reflexivity].
  unfold convicted. apply is_some_true. vm_compute. reflexivity.
Qed.

(** Any head of any logger will do. *)
Lemma head_convicts {P : prims} (z : gzip) (c : cconf P) (lc : lconf P) s pk t root size period : idle s ->
  cc_sign_scheme c = "rsa" -> cc_rsa_pubs c !! lc_signer lc = Some pk -> lc_signer lc <> "" -> plain_id (lc_signer lc) = true ->
  (forall m, rsa_check pk m (rsa_sign (lc_key lc) m) = true) ->
  exists s', handle_update z c s true (mkupd [] [] [] [sth_object lc t root size period] "" "") = (s', Applied) /\ convicted s' (lc_signer lc).
Proof.
  intros (I1 & I2 & I3) Hsc Hpk Hne Hpl Hok. unfold handle_update. rewrite I1, I2, I3. cbn [u_revs u_sths u_accs u_cons take_revs take_sths app take_poms checked].
  rewrite (sth_verifies lc c pk) by done. eexists. split; [reflexivity|]. unfold convicted. cbn [cl_pom]. change (g_p0 (sth_object lc t root size period)) with (lc_signer lc).
  rewrite lookup_insert. by eexists.
Qed.

(** C70: minutes of one digit. *)
Lemma nine_rejected : result fresh_client (good_upd 9) = Applied /\
  check_certificate toy_clc (good_client 9) (good_cert 9) = Reject.
Proof. vm_compute. done. Qed.

(** C71: logger 9101 signs a root for logger 9100, over certificates that 9100 never saw. *)
Definition forged_certs : list cert := [toy_cert "evil" "k1" 1; toy_cert "s2" "k2" 2].
Definition forged (g : gobj) : gobj :=
  mkobj (g_app g) (g_period g) (g_type g) "localhost:9101" [] (toy_rsa_sig "k2" "localhost:9101" (g_p0 g ++ g_p1 g ++ g_p2 g)) "" "t" "RSA" (g_p0 g) (g_p1 g) (g_p2 g).
Definition forged_head : gobj := forged (head_at forged_certs 12).
Definition forged_cert : cert := carrying (toy_cert "evil" "k1" 1) 3 [mkloginfo forged_head (poi_at forged_certs 12 0)].
Definition forged_upd : update := toy_upd [forged_head] [first_rev 12] [] [].
Lemma forged_accepted : result fresh_client forged_upd = Applied /\
  cl_sth (after fresh_client forged_upd) !! "localhost:9100@12" = Some (hex_encode (root_at forged_certs 12)) /\
  g_s0 forged_head = toy_rsa_sig "k2" "localhost:9101" (g_p0 forged_head ++ g_p1 forged_head ++ g_p2 forged_head) /\
  check_certificate toy_clc (after fresh_client forged_upd) forged_cert = Accept.
Proof. vm_compute. done. Qed.

(** C73: an hour later the minute is used again. *)
Definition other_certs : list cert := [toy_cert "s3" "k3" 3; toy_cert "s4" "k4" 4].
Definition later_upd : update := toy_upd [agreed (head_at other_certs 12) 12] [] [] [].
Lemma hour_later : check_certificate toy_clc (good_client 12) (good_cert 12) = Accept /\
  result (good_client 12) later_upd = Applied /\
  check_certificate toy_clc (after (good_client 12) later_upd) (good_cert 12) = Reject.
Proof. vm_compute. done. Qed.

(** C74: updates that stop the client. *)
Definition stranger_upd : update := toy_upd [toy_init STH_INIT "12" "kx" "localhost:9999" "a" ""] [] [] [].
Definition empty_rev_upd : update := toy_upd [] [toy_full REV_FULL "12" "localhost:9000" "CRV" ""] [] [].
Lemma killed : result fresh_client stranger_upd = Died /\ result fresh_client empty_rev_upd = Died.
Proof. vm_compute. done. Qed.

Lemma good_identities : identities_ok toy_z toy_clc (good_upd 12).
Proof.
  assert (forall g str x, update_lists (good_upd 12) g -> str = g_s0 g \/ str = g_s1 g -> rsasig_from_string str = Some x -> False) as H.
  { assert (forall g, update_lists (good_upd 12) g -> g = agreed (head_at two_certs 12) 12 \/ g = first_rev 12) as L.
    { intros g. unfold update_lists, good_upd, toy_upd. cbn [u_sths u_revs u_accs u_cons]. rewrite !elem_of_list_singleton, !elem_of_nil. tauto. }
    assert (forall g str, update_lists (good_upd 12) g -> str = g_s0 g \/ str = g_s1 g -> rsasig_from_string str = None) as N.
    { intros g str [-> | ->]%L [-> | ->]; vm_compute; reflexivity. }
    intros g str x X Y Z. by rewrite (N g str X Y) in Z. }
  split.
  - intros g str x X Y Z. by destruct (H g str x X Y Z).
  - intros g G. assert (g = first_rev 12) as -> by (by apply elem_of_list_singleton in G).
    destruct (option_witness rs_id (rsasig_from_string (fst (srh_and_dcrv toy_z (first_rev 12)))) "localhost:9000") as (x & X & I); [vm_compute; reflexivity|].
    exists x. split; [exact X|]. rewrite I. apply is_some_true. vm_compute. reflexivity.
Qed.

(** C75: the second payload of a tree head is hexadecimal. *)
Lemma hex_no_json s m : parse_json (hex_encode s) <> Some (JObj m) /\ parse_json (hex_encode s) <> Some JNull.
Proof.
  unfold parse_json. destruct s as [|[b0 b1 b2 b3 b4 b5 b6 b7] s]; [done|]. cbn [hex_encode].
  set (r := String _ (hex_encode s)). generalize (len (String (hex_digit b4 b5 b6 b7) r)). intros n. clearbody r.
  assert (forall w o, parse_val (S n) (String (hex_digit b4 b5 b6 b7) r) = Some (w, o) -> (forall m, w <> JObj m) /\ w <> JNull) as H.
  { intros w o. destruct b4, b5, b6, b7; cbn -[parse_num]; intros H; repeat (case_match; try done); injection H as <- <-; done. }
  destruct (parse_val (S n) _) as [[w o]|]; [|done]. destruct (H w o eq_refl) as [H1 H2].
  destruct (is_empty _); [|done]. split; [intros X; injection X as X; by apply (H1 m)|intros X; injection X as X; by apply H2].
Qed.

Lemma no_roots g r s : g_p1 g = hex_encode s -> get_root_hash (g :: r) = Some [].
Proof.
  intros E. cbn [get_root_hash]. rewrite E. destruct (parse_json (hex_encode s)) as [[]|] eqn:J; try done.
  - by destruct (hex_no_json s []) as [_ H].
  - by destruct (hex_no_json s l) as [H _].
Qed.

Lemma json_roots g r m x xs : parse_json (g_p1 g) = Some (JObj m) -> root_member m = Some x ->
  get_root_hash r = Some xs -> get_root_hash (g :: r) = Some (x :: xs).
Proof. intros J M R. cbn [get_root_hash]. by rewrite J, M, R. Qed.

Lemma roots_instance : g_p1 (head_at two_certs 12) = hex_encode (sth_marshal (tree_head toy_logger (at_min 12) (root_at two_certs 12) 2)) /\
  get_root_hash [mkobj "" "" "" "" [] "" "" "" "" "" "{""RootHash"":""r""}" ""] = Some ["r"].
Proof. split; vm_compute; reflexivity. Qed.

(** Instances used in the property file. *)
Lemma pair_of {A B} (p : A * B) x y : fst p = x -> snd p = y -> p = (x, y).
Proof. destruct p. cbn. by intros -> ->. Qed.

Lemma first_instance : exists y os, lived toy_z toy_clc ([] ++ KUpdate true first_upd :: [KSave; KRestart; KUpdate true later_upd]) y os /\
  durable [KSave; KRestart; KUpdate true later_upd] /\
  handle_update toy_z toy_clc (cs_cl clsys_new) true first_upd = (after fresh_client first_upd, Applied) /\
  c_issuer_cn (good_cert 12) = g_p0 (toy_rev "12" revoked3 revoked3) /\
  revoked_in (snd (srh_and_dcrv toy_z (toy_rev "12" revoked3 revoked3))) (good_cert 12).
Proof.
  eexists _, _. split; [apply cl_to_lived; vm_compute; reflexivity|]. split.
  - intros [|e a] b H; [discriminate H|]. injection H as <- H. by left.
  - split; [apply pair_of; [reflexivity|exact (proj1 first_counts)]|]. split; apply first_counts.
Qed.

Lemma typed_instance : exists y os, lived toy_z toy_clc [KUpdate true proof_upd] y os /\ careful [KUpdate true proof_upd] /\
  proofs_typed proof_upd /\ convicted (cs_cl y) "localhost:9100".
Proof.
  eexists _, _. split; [apply cl_to_lived; vm_compute; reflexivity|]. split.
  - intros u H. apply elem_of_list_singleton in H. discriminate H.
  - split; [|unfold convicted; apply is_some_true; vm_compute; reflexivity]. split; cbn.
    + by intros g ->%elem_of_list_singleton.
    + by intros g ?%elem_of_nil.
Qed.

Lemma logged_instance : build_tree toy_logger two_certs (at_min 12) 12 = Some (head_at two_certs 12, root_at two_certs 12, pois_at two_certs 12) /\
  pois_at two_certs 12 !! 0 = Some (poi_at two_certs 12 0) /\ verify toy_clc (head_at two_certs 12) = Accept /\
  handle_update toy_z toy_clc fresh_client true (good_upd 12) = (good_client 12, Applied) /\
  mkloginfo (head_at two_certs 12) (poi_at two_certs 12 0) ∈ relied_on (good_cert 12) /\
  ~ convicted (good_client 12) (lc_signer toy_logger).
Proof.
  split; [vm_compute; reflexivity|]. split; [vm_compute; reflexivity|]. split; [vm_compute; reflexivity|].
  split; [apply pair_of; [reflexivity|exact good_applied]|]. split; [rewrite good_heads; by left|].
  unfold convicted. apply is_some_false. vm_compute. reflexivity.
Qed.

Lemma root_instance : exists y os, lived toy_z toy_clc [KUpdate true (good_upd 12)] y os /\ careful [KUpdate true (good_upd 12)] /\
  is_Some (cl_sth (cs_cl y) !! "localhost:9100@12").
Proof.
  eexists _, _. split; [apply cl_to_lived; vm_compute; reflexivity|]. split.
  - intros u H. apply elem_of_list_singleton in H. discriminate H.
  - apply is_some_true. vm_compute. reflexivity.
Qed.

Lemma saved_instance : exists y os, lived toy_z toy_clc [KUpdate true (good_upd 12); KUpdate true half_upd] y os /\ ~ idle (cs_cl y) /\
  is_Some (cl_sth (cs_cl y) !! "localhost:9100@12").
Proof.
  eexists _, _. split; [apply cl_to_lived; vm_compute; reflexivity|]. split.
  - enough (cl_sth_lock (cs_cl (cl_to [KUpdate true (good_upd 12); KUpdate true half_upd])) = true) as L by (intros (_ & H & _); congruence).
    vm_compute. reflexivity.
  - apply is_some_true. vm_compute. reflexivity.
Qed.

Lemma unrelated_instance : unrelated (good_upd 13) (good_cert 12) /\ result (good_client 12) (good_upd 13) = Applied /\
  is_Some (cl_crv (good_client 12) !! c_issuer_cn (good_cert 12)).
Proof.
  split; [|split; [vm_compute; reflexivity|apply is_some_true; vm_compute; reflexivity]].
  intros i. rewrite good_heads. intros ->%elem_of_list_singleton. split.
  - cbn [good_upd toy_upd u_sths]. intros g ->%elem_of_list_singleton. vm_compute. done.
  - cbn [good_upd toy_upd u_accs u_cons]. by intros g [?%elem_of_nil|?%elem_of_nil].
Qed.
