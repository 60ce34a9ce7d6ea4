(** Proofs about the CTng extension. *)
From Verif Require Import Bytes Hex Base64 Json Types Merkle Cert CTngExt SpecCodec SpecCert CodecFacts Base64Facts JsonFacts WireFacts.
From Coq Require Import Lia.
Open Scope string_scope.

(** ** Octet strings *)
Lemma be_value_acc s : forall a, be_value s a = (a * 256 ^ N.of_nat (len s) + be_value s 0)%N.
Proof.
  induction s as [|c s IH]; intros a; cbn [be_value].
  - cbn. lia.
  - rewrite IH, (IH (0 * 256 + N_of_ascii c)%N). cbn [len String.length]. unfold len. rewrite Nat2N.inj_succ, N.pow_succ_r'. lia.
Qed.

Lemma be_bytes_value f : forall n acc, (n < 256 ^ N.of_nat f)%N ->
  be_value (be_bytes f n acc) 0 = (n * 256 ^ N.of_nat (len acc) + be_value acc 0)%N.
Proof.
  induction f as [|f IH]; intros n acc Hn.
  - cbn in *. assert (n = 0%N) as -> by lia. lia.
  - cbn [be_bytes]. destruct (N.eqb_spec n 0) as [->|H0]; [lia|]. rewrite Nat2N.inj_succ, N.pow_succ_r' in Hn. rewrite IH.
    + cbn [be_value len String.length]. rewrite N_ascii_embedding by (apply N.mod_lt; lia).
      rewrite (be_value_acc acc). fold (len acc). rewrite Nat2N.inj_succ, N.pow_succ_r'.
      rewrite (N.div_mod n 256) at 3 by done. lia.
    + apply N.div_lt_upper_bound; lia.
Qed.

Lemma be_bytes_len f : forall k n acc, (n < 256 ^ N.of_nat k)%N -> len (be_bytes f n acc) <= k + len acc.
Proof.
  induction f as [|f IH]; intros k n acc Hn; cbn [be_bytes]; [lia|].
  destruct (N.eqb_spec n 0) as [->|H0]; [lia|]. destruct k as [|k]; [cbn in Hn; lia|].
  rewrite Nat2N.inj_succ, N.pow_succ_r' in Hn. etransitivity; [apply (IH k); apply N.div_lt_upper_bound; lia|]. cbn. fold (len acc). lia.
Qed.

Lemma be_bytes_head f : forall n acc, (0 < n < 256 ^ N.of_nat f)%N ->
  exists c r, be_bytes f n acc = String c r /\ c <> "000"%char.
Proof.
  induction f as [|f IH]; intros n acc Hn; [cbn in Hn; lia|].
  cbn [be_bytes]. destruct (N.eqb_spec n 0) as [->|H0]; [lia|].
  rewrite Nat2N.inj_succ, N.pow_succ_r' in Hn.
  destruct (N.eqb_spec (n / 256) 0) as [E|E].
  - rewrite E. assert (be_bytes f 0 (String (ascii_of_N (n mod 256)) acc) = String (ascii_of_N (n mod 256)) acc) as -> by (by destruct f).
    eexists _, _. split; [done|]. intros Hc. apply (f_equal N_of_ascii) in Hc. rewrite N_ascii_embedding in Hc by (apply N.mod_lt; lia).
    change (N_of_ascii "000") with 0%N in Hc. pose proof (N.div_mod' n 256). lia.
  - apply IH. split; [by apply N.neq_0_lt_0|]. apply N.div_lt_upper_bound; lia.
Qed.

Lemma split_at_app a b : split_at (len a) (a ++ b) = Some (a, b).
Proof. induction a as [|c a IH]; [by destruct b|]. cbn. unfold len in IH. by rewrite IH. Qed.

Lemma split_at_all a : split_at (len a) a = Some (a, "").
Proof. pose proof (split_at_app a "") as H. by rewrite app_nil_r_s in H. Qed.

Lemma der_content_octet b : (N.of_nat (len b) < 2147483648)%N -> der_content (octet_string b) = Some b.
Proof.
  intros Hb. unfold octet_string, der_length. set (n := N.of_nat (len b)) in *.
  destruct (N.ltb_spec n 128) as [Hs|Hs].
  - cbn [append der_content]. rewrite N_ascii_embedding by lia. cbn -[split_at N.to_nat].
    destruct (N.ltb_spec n 128); [|lia]. unfold n. rewrite Nat2N.id. by rewrite split_at_all.
  - set (lb := be_bytes 8 n "").
    assert (len lb <= 4) as Hl. { pose proof (be_bytes_len 8 4 n "") as H. cbn -[be_bytes N.lt] in H. unfold lb. unfold len in *. cbn -[be_bytes N.lt] in *. lia. }
    destruct (be_bytes_head 8 n "") as (c & r & E & Hc). { cbn. lia. }
    fold lb in E.
    assert (1 <= len lb) as Hl1 by (rewrite E; cbn; lia).
    assert (be_value lb 0 = n) as Hv. { unfold lb. rewrite be_bytes_value; cbn; lia. }
    clearbody lb. cbn [append der_content]. rewrite N_ascii_embedding by lia. cbn -[split_at N.to_nat N.of_nat append].
    destruct (N.ltb_spec (128 + N.of_nat (len lb)) 128); [lia|].
    destruct (N.eqb_spec (128 + N.of_nat (len lb)) 128); [lia|]. destruct (N.ltb_spec 132 (128 + N.of_nat (len lb))); [lia|]. cbn [orb].
    replace (N.to_nat (128 + N.of_nat (len lb) - 128)) with (len lb) by lia. rewrite split_at_app.
    rewrite Hv.
    destruct (N.ltb_spec n 128); [lia|]. destruct (N.leb_spec 2147483648 n); [lia|]. cbn [orb].
    assert (match lb with String "000" _ => true | _ => false end = false) as ->.
    { rewrite E. destruct c as [[] [] [] [] [] [] [] []]; try done. }
    fold n. rewrite N.ltb_irrefl. unfold n. rewrite Nat2N.id. by rewrite split_at_all.
Qed.

(** ** JSON *)

Lemma wf_jstrs (f : string -> string) l : Forall wf_json (map (λ s, JStr (f s)) l).
Proof. induction l; constructor; auto. constructor. Qed.

Lemma wf_proof p : wf_json (proof_json p).
Proof.
  unfold proof_json. constructor. repeat constructor; try apply num_ok_itoa. cbn.
  destruct (pf_siblings p) as [|a l]; constructor. apply (wf_jstrs b64_encode (a :: l)).
Qed.

Lemma wf_opt k v : Forall (λ kv : string * json, wf_json (snd kv)) (opt_str k v).
Proof. unfold opt_str. destruct (is_empty v); repeat constructor. Qed.

Lemma wf_poi p : wf_json (poi_json p).
Proof.
  unfold poi_json. constructor. repeat apply Forall_app_2; try apply wf_opt.
  destruct (poi_proof p); [|constructor]. constructor; [apply wf_proof|constructor].
Qed.

Lemma wf_loginfo i : wf_json (loginfo_json i).
Proof. unfold loginfo_json. constructor. constructor; [apply wf_gobj|]. constructor; [apply wf_poi|constructor]. Qed.

Lemma wf_ctng x : wf_json (ctng_json x).
Proof.
  unfold ctng_json. constructor. apply Forall_app_2.
  - constructor; [|constructor]. cbn. constructor. destruct (Z.eqb _ _); [constructor|]. constructor; [|constructor]. constructor. apply num_ok_itoa.
  - destruct (x_infos x) as [|i l]; [constructor|]. constructor; [|constructor]. cbn [snd]. constructor.
    induction (i :: l); constructor; auto. apply wf_loginfo.
Qed.

Lemma tol_strings_map l : tol_strings (map JStr l) = l.
Proof. unfold tol_strings. induction l; cbn; [done|]. by rewrite IHl. Qed.

Lemma gobj_tol_json g : tol_struct gobj_tol zero_obj (gobj_json g) = g.
Proof.
  destruct g as [a p t s ss s0 s1 ti sc p0 p1 p2]. unfold gobj_json.
  cbn [g_app g_period g_type g_signer g_signers g_s0 g_s1 g_time g_scheme g_p0 g_p1 g_p2].
  destruct ss as [|x ss]; [reflexivity|].
  transitivity (mkobj a p t s (tol_strings (map JStr (x :: ss))) s0 s1 ti sc p0 p1 p2); [|by rewrite tol_strings_map].
  generalize (map JStr (x :: ss)). intros l. reflexivity.
Qed.

Lemma tol_bytes_map l : map (tol_bytes "") (map (λ s, JStr (b64_encode s)) l) = l.
Proof. induction l as [|a l IH]; [done|]. cbn [map tol_bytes]. by rewrite b64_roundtrip, IH. Qed.

Lemma tol_int_itoa lo hi old z : (lo <= z <= hi)%Z -> tol_int lo hi old (JNum (itoa z)) = z.
Proof.
  intros H. unfold tol_int. cbn [dec_int]. rewrite atoi_itoa.
  destruct (Z.leb_spec lo z); [|lia]. destruct (Z.leb_spec z hi); [done|lia].
Qed.

Lemma proof_tol_json p : (pf_path p <= 4294967295)%N -> tol_struct proof_tol (mkproof [] 0) (proof_json p) = p.
Proof.
  intros Hp. destruct p as [l n]. unfold proof_json. cbn [pf_siblings pf_path] in *.
  transitivity (mkproof l (Z.to_N (tol_int 0 uint32_max 0 (JNum (itoa (Z.of_N n)))))).
  - destruct l as [|a l]; [done|].
    transitivity (mkproof (map (tol_bytes "") (map (λ s, JStr (b64_encode s)) (a :: l))) (Z.to_N (tol_int 0 uint32_max 0 (JNum (itoa (Z.of_N n)))))); [done|].
    by rewrite tol_bytes_map.
  - rewrite tol_int_itoa by (unfold uint32_max; lia). by rewrite N2Z.id.
Qed.

Lemma b64_empty s : is_empty (b64_encode s) = is_empty s.
Proof. destruct s as [|[] [|[] [|[] s]]]; reflexivity. Qed.

Lemma poi_tol_json p : (forall q, poi_proof p = Some q -> (pf_path q <= 4294967295)%N) ->
  tol_struct poi_tol zero_poi (poi_json p) = p.
Proof.
  intros Hp. destruct p as [q s i l]. unfold poi_json. cbn [poi_proof poi_ski poi_issuer poi_logger] in *.
  unfold tol_struct. rewrite !fold_left_app.
  assert (fold_left poi_tol match q with Some q => [("poi", proof_json q)] | None => [] end zero_poi = mkpoi q "" "" "") as ->.
  { destruct q as [q|]; [|done]. cbn [fold_left]. unfold poi_tol, zero_poi. change (lower_str "poi") with "poi". rewrite String.eqb_refl.
    transitivity (mkpoi (Some (tol_struct proof_tol (mkproof [] 0) (proof_json q))) "" "" ""); [done|].
    rewrite proof_tol_json by auto. done. }
  assert (fold_left poi_tol (opt_str "subjectKeyId" (b64_encode s)) (mkpoi q "" "" "") = mkpoi q s "" "") as ->.
  { unfold opt_str. rewrite b64_empty. destruct s as [|c s]; [done|]. cbn [is_empty fold_left].
    unfold poi_tol. change (lower_str "subjectKeyId") with "subjectkeyid". cbn [String.eqb Ascii.eqb Bool.eqb].
    unfold tol_bytes. by rewrite b64_roundtrip. }
  destruct i as [|ci i]; destruct l as [|cl l]; reflexivity.
Qed.

Lemma loginfo_tol_json i : info_ok i -> tol_struct loginfo_tol zero_loginfo (loginfo_json i) = i.
Proof.
  intros Hi. destruct i as [g p]. unfold info_ok in Hi. cbn [li_poi] in Hi. unfold loginfo_json. cbn [li_sth li_poi tol_struct fold_left].
  transitivity (mkloginfo (tol_struct gobj_tol zero_obj (gobj_json g)) (tol_struct poi_tol zero_poi (poi_json p))); [done|].
  by rewrite gobj_tol_json, poi_tol_json.
Qed.

Lemma ctng_tol_json x : (- int64_max - 1 <= x_rid x <= int64_max)%Z -> Forall info_ok (x_infos x) ->
  ctng_of_json (ctng_json x) = x.
Proof.
  destruct x as [r l]. cbn [x_rid x_infos]. intros Hr Hl. unfold ctng_of_json, ctng_json, tol_struct. cbn [x_rid x_infos].
  rewrite fold_left_app.
  assert (fold_left ctng_tol [("SequenceNumber", JObj (if (r =? 0)%Z then [] else [("RID", JNum (itoa r))]))] zero_ctng = mkctng r []) as ->.
  { cbn [fold_left]. transitivity (mkctng (tol_struct seq_tol 0%Z (JObj (if (r =? 0)%Z then [] else [("RID", JNum (itoa r))]))) []); [done|].
    destruct (Z.eqb_spec r 0) as [->|Hn]; [done|]. cbn [tol_struct fold_left].
    transitivity (mkctng (tol_int (- int64_max - 1) int64_max 0 (JNum (itoa r))) []); [done|]. by rewrite tol_int_itoa. }
  destruct l as [|i l]; [done|]. cbn [fold_left].
  transitivity (mkctng r (map (tol_struct loginfo_tol zero_loginfo) (map loginfo_json (i :: l)))); [done|].
  f_equal. induction Hl as [|j l' Hj Hl IH]; [done|]. cbn [map]. by rewrite loginfo_tol_json, IH.
Qed.

Lemma decode_encode x : ext_ok x -> decode_ctng (encode_ctng x) = x.
Proof.
  intros (H1 & H2 & H3). unfold decode_ctng, encode_ctng. rewrite der_content_octet by done.
  unfold ctng_unmarshal. rewrite parse_json_print by apply wf_ctng. by apply ctng_tol_json.
Qed.

(** ** Updates *)
Lemma fold_last {A B} (f : A -> bool) (g : A -> B) l : forall acc,
  fold_left (λ acc e, if f e then g e else acc) l acc = match last (List.filter f l) with Some e => g e | None => acc end.
Proof.
  induction l as [|a l IH] using rev_ind; intros acc; [done|]. rewrite fold_left_app, List.filter_app. cbn.
  destruct (f a); [by rewrite last_snoc|]. by rewrite app_nil_r.
Qed.

Definition is_ctng (e : ext) : bool := String.eqb (e_oid e) OID_CTNG.

Lemma parse_ctng_last c : parse_ctng c = match last (List.filter is_ctng (c_exts c)) with Some e => decode_ctng (e_value e) | None => zero_ctng end.
Proof. unfold parse_ctng. apply (fold_last is_ctng (λ e, decode_ctng (e_value e))). Qed.

Definition rewrite_ext (v : string) (e : ext) : ext := if is_ctng e then mkext (e_oid e) (e_critical e) v else e.

Lemma filter_rewrite v l : List.filter is_ctng (map (rewrite_ext v) l) = map (rewrite_ext v) (List.filter is_ctng l).
Proof.
  induction l as [|e l IH]; [done|]. cbn [map List.filter].
  assert (is_ctng (rewrite_ext v e) = is_ctng e) as ->. { unfold rewrite_ext. destruct (is_ctng e) eqn:E; [|done]. exact E. }
  destruct (is_ctng e); cbn [map]; by rewrite IH.
Qed.

Lemma carries_last c : carries c <-> exists e, last (List.filter is_ctng (c_exts c)) = Some e /\ is_ctng e = true.
Proof.
  split.
  - intros (e & He & Ho). assert (In e (List.filter is_ctng (c_exts c))) as Hi.
    { apply List.filter_In. rewrite <- elem_of_list_In. split; [done|]. apply String.eqb_eq. done. }
    destruct (last (List.filter is_ctng (c_exts c))) as [e'|] eqn:E.
    + exists e'. split; [done|]. apply last_Some_elem_of, elem_of_list_In, List.filter_In in E. by destruct E.
    + apply last_None in E. by rewrite E in Hi.
  - intros (e & E & Hi). exists e. apply last_Some_elem_of, elem_of_list_In, List.filter_In in E as [E _].
    split; [by apply elem_of_list_In|]. by apply String.eqb_eq.
Qed.

Lemma parse_rewritten c v : carries c -> parse_ctng (set_exts c (map (rewrite_ext v) (c_exts c))) = decode_ctng v.
Proof.
  intros (e & He & Hi)%carries_last. rewrite parse_ctng_last. cbn [c_exts set_exts]. rewrite filter_rewrite.
  rewrite fmap_last, He. cbn. unfold rewrite_ext. by rewrite Hi.
Qed.

Lemma listed_dec i l : listed i l <-> existsb (λ j, String.eqb (g_signer (li_sth j)) (g_signer (li_sth i))) l = true.
Proof.
  rewrite existsb_exists. unfold listed. split; intros (j & Hj & H); exists j; rewrite ?elem_of_list_In in *.
  - split; [done|]. by apply String.eqb_eq.
  - split; [done|]. by apply String.eqb_eq.
Qed.

Lemma update_listed c i : listed i (x_infos (parse_ctng c)) -> update_ctng c i = c.
Proof. intros H. unfold update_ctng. apply listed_dec in H. by rewrite H. Qed.

Lemma update_new c i : carries c -> ~ listed i (x_infos (parse_ctng c)) ->
  ext_ok (mkctng (x_rid (parse_ctng c)) (x_infos (parse_ctng c) ++ [i])) ->
  parse_ctng (update_ctng c i) = mkctng (x_rid (parse_ctng c)) (x_infos (parse_ctng c) ++ [i]).
Proof.
  intros Hc Hn Hx. unfold update_ctng. rewrite listed_dec in Hn. destruct (existsb _ _); [done|].
  etransitivity; [apply (parse_rewritten c _ Hc)|]. by apply decode_encode.
Qed.

Lemma update_frame c i : exists l, update_ctng c i = set_exts c l.
Proof. unfold update_ctng. destruct (existsb _ _); [exists (c_exts c); by destruct c|eauto]. Qed.

Lemma update_carries c i : carries c -> carries (update_ctng c i).
Proof.
  intros (e & He & Ho). unfold update_ctng. destruct (existsb _ _); [by exists e|].
  eexists. cbn [c_exts set_exts]. split; [apply elem_of_list_fmap; exists e; split; [done|exact He]|].
  apply String.eqb_eq in Ho. rewrite Ho. cbn. by apply String.eqb_eq.
Qed.

(** ** Many updates *)
Definition weight (l : list json) : nat := fold_right (λ v n, S (len (print_json v)) + n) 0 l.

Lemma print_elems_weight l : len (print_elems l) = pred (weight l).
Proof.
  induction l as [|v l IH]; [done|]. cbn [print_elems weight fold_right]. destruct l as [|w l].
  - cbn. lia.
  - rewrite !len_app, IH. change (weight (v :: w :: l)) with (S (len (print_json v)) + weight (w :: l)).
    fold (weight (w :: l)). cbn [len String.length]. assert (0 < weight (w :: l)) by (cbn; lia). lia.
Qed.

Lemma weight_sublist (f : loginfo -> json) l l' : sublist l l' -> weight (map f l) <= weight (map f l').
Proof. unfold weight. induction 1; cbn [map fold_right]; lia. Qed.

Lemma ctng_size r l l' : sublist l l' -> len (print_json (ctng_json (mkctng r l))) <= len (print_json (ctng_json (mkctng r l'))).
Proof.
  intros Hs. pose proof (weight_sublist loginfo_json _ _ Hs) as Hw. unfold ctng_json. cbn [x_rid x_infos].
  generalize (JObj (if (r =? 0)%Z then [] else [("RID", JNum (itoa r))])). intros sq.
  destruct l as [|i l]; destruct l' as [|i' l']; cbn [app].
  - done.
  - rewrite !print_obj. cbn [print_members]. rewrite !len_app. lia.
  - apply sublist_nil_r in Hs. done.
  - rewrite !print_obj. cbn [print_members]. rewrite !print_arr. rewrite !len_app, !print_elems_weight. lia.
Qed.

Lemma ext_ok_sublist r l l' : sublist l l' -> ext_ok (mkctng r l') -> ext_ok (mkctng r l).
Proof.
  intros Hs (H1 & H2 & H3). split; [exact H1|split].
  - cbn in *. rewrite Forall_forall in *. intros i Hi. apply H2. apply sublist_submseteq, submseteq_Permutation in Hs as [k ->]. apply elem_of_app. by left.
  - pose proof (ctng_size r _ _ Hs). unfold len in *. lia.
Qed.

Lemma update_all l : forall c, carries c -> ext_ok (mkctng (x_rid (parse_ctng c)) (x_infos (parse_ctng c) ++ l)) ->
  exists added, parse_ctng (fold_left update_ctng l c) = mkctng (x_rid (parse_ctng c)) (x_infos (parse_ctng c) ++ added) /\
    sublist added l /\ (forall i, i ∈ l -> listed i (x_infos (parse_ctng c) ++ added)) /\
    (NoDup (map (λ j, g_signer (li_sth j)) (x_infos (parse_ctng c))) ->
     NoDup (map (λ j, g_signer (li_sth j)) (x_infos (parse_ctng c) ++ added))).
Proof.
  induction l as [|i l IH]; intros c Hc Hx.
  - exists []. rewrite app_nil_r. cbn [fold_left]. split_and!; auto; [by destruct (parse_ctng c)|by intros i ?%elem_of_nil].
  - cbn [fold_left]. destruct (existsb (λ j, String.eqb (g_signer (li_sth j)) (g_signer (li_sth i))) (x_infos (parse_ctng c))) eqn:E.
    + apply listed_dec in E. rewrite update_listed by done. destruct (IH c Hc) as (added & H1 & H2 & H3 & H4).
      { eapply ext_ok_sublist; [|exact Hx]. apply sublist_app; [done|]. by constructor. }
      exists added. split_and!; auto; [by constructor|]. intros j [->|Hj]%elem_of_cons; [|auto].
      destruct E as (k & Hk & Hs). exists k. split; [apply elem_of_app; by left|done].
    + assert (~ listed i (x_infos (parse_ctng c))) as Hn by (rewrite listed_dec, E; done).
      assert (parse_ctng (update_ctng c i) = mkctng (x_rid (parse_ctng c)) (x_infos (parse_ctng c) ++ [i])) as Hu.
      { apply update_new; [exact Hc|exact Hn|]. eapply ext_ok_sublist; [|exact Hx]. apply sublist_app; [done|]. constructor. apply sublist_nil_l. }
      destruct (IH (update_ctng c i)) as (added & H1 & H2 & H3 & H4).
      { by apply update_carries. }
      { rewrite Hu. cbn [x_rid x_infos]. by rewrite <- app_assoc. }
      rewrite Hu in *. cbn [x_rid x_infos] in *. rewrite <- app_assoc in *. exists (i :: added). split_and!; auto.
      * by constructor.
      * intros j [->|Hj]%elem_of_cons; [|auto]. exists i. split; [apply elem_of_app; right; by left|done].
      * intros Hd. apply H4. rewrite map_app. apply NoDup_app. split_and!; [done| |cbn; apply NoDup_singleton].
        intros s Hs Hi. cbn in Hi. apply elem_of_list_singleton in Hi as ->. apply Hn.
        apply elem_of_list_fmap in Hs as (j & Hj & Hj'). by exists j.
Qed.

(** ** Signing *)
Lemma precert_fields c : ext_ok (mkctng (cert_rid c) []) ->
  parse_ctng (precert_of c) = mkctng (cert_rid c) [] /\ carries (precert_of c) /\
  c_subject (precert_of c) = c_subject c /\ c_ski (precert_of c) = c_ski c /\ c_raw (precert_of c) = "".
Proof.
  intros Hx. split_and!; try done.
  - unfold precert_of. rewrite parse_ctng_last. cbn [c_exts set_exts List.filter].
    change (is_ctng (mkext OID_CTNG false (encode_ctng (mkctng (cert_rid c) [])))) with true. cbn [last e_value].
    by apply decode_encode.
  - eexists. split; [apply elem_of_list_here|done].
Qed.
