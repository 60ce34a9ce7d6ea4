(** Proofs about crypto configurations and their files. *)
From Verif Require Import Bytes Hex Base64 Json CodecFacts JsonFacts Base64Facts Crypto CTngExt ClientMore.
From Verif Require Import CryptoIO IndentFacts SpecCryptoIO.
From Coq Require Import Lia.
Open Scope string_scope.

Section io.
Context {P : prims} (K : keyio P).
Implicit Types (c d : cconf P) (s : scc (P:=P)).

(* ---------------------------------------------------------------- *)
(** * Stored configurations and their JSON *)

Definition scc_ints s : Prop := go_int (sc_threshold s) /\ go_int (sc_n s) /\ go_int (sc_hash s).

Lemma tol_int_itoa old z : go_int z -> tol_int (- int64_max - 1) int64_max old (JNum (itoa z)) = z.
Proof.
  intros H. unfold tol_int. cbn [dec_int]. rewrite atoi_itoa. unfold go_int in H.
  replace ((- int64_max - 1 <=? z)%Z) with true by (symmetry; apply Z.leb_le; unfold int64_max; lia).
  replace ((z <=? int64_max)%Z) with true by (symmetry; apply Z.leb_le; unfold int64_max; lia).
  done.
Qed.

Lemma scc_json_wf s : rsa_json_ok K -> wf_json (scc_json K s).
Proof.
  intros H. unfold scc_json. constructor.
  repeat (apply Forall_cons_2; [cbn [snd]|]); try apply Forall_nil_2; try (constructor; apply num_ok_itoa); try constructor.
  - apply Forall_fmap, Forall_true. intros [k v]. cbn. apply H.
  - apply H.
  - apply Forall_fmap, Forall_true. intros [k v]. cbn. constructor.
Qed.

Lemma rsa_map_read (m : gmap string (rsa_pub P)) : rsa_json_ok K ->
  fold_left (λ m e, <[fst e := rsa_pub_read K (snd e)]> m)
    (map (λ kv, (fst kv, rsa_pub_json K (snd kv))) (map_to_list m)) ∅ = m.
Proof.
  intros H. rewrite fold_map_l. cbn [fst snd].
  rewrite (fold_table (λ x, rsa_pub_read K (rsa_pub_json K x))) by apply NoDup_fst_map_to_list.
  rewrite (list_to_map_values (λ x, rsa_pub_read K (rsa_pub_json K x))), (right_id_L ∅ (∪)).
  rewrite <- (map_fmap_id m) at 2. apply map_fmap_ext. intros i x _. apply H.
Qed.

Lemma bytes_map_read (m : gmap string string) :
  fold_left (λ m e, <[fst e := tol_bytes "" (snd e)]> m)
    (map (λ kv, (fst kv, JStr (b64_encode (snd kv)))) (map_to_list m)) ∅ = m.
Proof.
  rewrite fold_map_l. cbn [fst snd].
  rewrite (fold_table (λ x, tol_bytes "" (JStr (b64_encode x)))) by apply NoDup_fst_map_to_list.
  rewrite (list_to_map_values (λ x, tol_bytes "" (JStr (b64_encode x)))), (right_id_L ∅ (∪)).
  rewrite <- (map_fmap_id m) at 2. apply map_fmap_ext. intros i x _. cbn. by rewrite b64_roundtrip.
Qed.

Lemma tolf_self a t n h ss ts rp rs bp bs v : scc_tol K (mkscc a t n h ss ts rp rs bp bs) ("SelfID", v) = mkscc (tol_string a v) t n h ss ts rp rs bp bs.
Proof. reflexivity. Qed.
Lemma tolf_thr a t n h ss ts rp rs bp bs v : scc_tol K (mkscc a t n h ss ts rp rs bp bs) ("Threshold", v) = mkscc a (tol_int (- int64_max - 1) int64_max t v) n h ss ts rp rs bp bs.
Proof. reflexivity. Qed.
Lemma tolf_n a t n h ss ts rp rs bp bs v : scc_tol K (mkscc a t n h ss ts rp rs bp bs) ("N", v) = mkscc a t (tol_int (- int64_max - 1) int64_max n v) h ss ts rp rs bp bs.
Proof. reflexivity. Qed.
Lemma tolf_hash a t n h ss ts rp rs bp bs v : scc_tol K (mkscc a t n h ss ts rp rs bp bs) ("HashScheme", v) = mkscc a t n (tol_int (- int64_max - 1) int64_max h v) ss ts rp rs bp bs.
Proof. reflexivity. Qed.
Lemma tolf_ss a t n h ss ts rp rs bp bs v : scc_tol K (mkscc a t n h ss ts rp rs bp bs) ("SignScheme", v) = mkscc a t n h (tol_string ss v) ts rp rs bp bs.
Proof. reflexivity. Qed.
Lemma tolf_ts a t n h ss ts rp rs bp bs v : scc_tol K (mkscc a t n h ss ts rp rs bp bs) ("ThresholdScheme", v) = mkscc a t n h ss (tol_string ts v) rp rs bp bs.
Proof. reflexivity. Qed.
Lemma tolf_rp a t n h ss ts rp rs bp bs v : scc_tol K (mkscc a t n h ss ts rp rs bp bs) ("SignPublicMap", JObj v) = mkscc a t n h ss ts (fold_left (λ m e, <[fst e := rsa_pub_read K (snd e)]> m) v rp) rs bp bs.
Proof. reflexivity. Qed.
Lemma tolf_rs a t n h ss ts rp rs bp bs v : scc_tol K (mkscc a t n h ss ts rp rs bp bs) ("SignSecretKey", v) = mkscc a t n h ss ts rp (rsa_sec_read K v) bp bs.
Proof. reflexivity. Qed.
Lemma tolf_bp a t n h ss ts rp rs bp bs v : scc_tol K (mkscc a t n h ss ts rp rs bp bs) ("ThresholdPublicMap", JObj v) = mkscc a t n h ss ts rp rs (fold_left (λ m e, <[fst e := tol_bytes "" (snd e)]> m) v bp) bs.
Proof. reflexivity. Qed.
Lemma tolf_bs a t n h ss ts rp rs bp bs v : scc_tol K (mkscc a t n h ss ts rp rs bp bs) ("ThresholdSecretKey", v) = mkscc a t n h ss ts rp rs bp (tol_bytes bs v).
Proof. reflexivity. Qed.

Lemma scc_read s : rsa_json_ok K -> scc_ints s -> tol_struct (scc_tol K) (scc0 K) (scc_json K s) = s.
Proof.
  intros H (Ht & Hn & Hh). destruct s as [a t n h ss ts rp rs bp bs]. cbn [sc_threshold sc_n sc_hash] in *.
  unfold scc_json, tol_struct, scc0. cbn [sc_self sc_threshold sc_n sc_hash sc_sign_scheme sc_thr_scheme sc_rsa_pubs sc_rsa_sec sc_bls_pubs sc_bls_sec].
  cbn [fold_left].
  rewrite tolf_self, tolf_thr, tolf_n, tolf_hash, tolf_ss, tolf_ts, tolf_rp, tolf_rs, tolf_bp, tolf_bs.
  rewrite !tol_int_itoa by done. rewrite rsa_map_read by done. rewrite bytes_map_read.
  rewrite (rsa_sec_back K H). cbn [tol_string dec_string tol_bytes]. by rewrite b64_roundtrip.
Qed.

Lemma scc_parse_write s : rsa_json_ok K -> scc_ints s -> scc_parse K (write_data (scc_json K s)) = s.
Proof.
  intros H Hi. unfold scc_parse. rewrite parse_write_data by by apply scc_json_wf. by apply scc_read.
Qed.

Lemma scc_parse_gen s : rsa_json_ok K -> scc_ints s -> scc_parse K (gen_write (scc_json K s)) = s.
Proof.
  intros H Hi. unfold scc_parse. rewrite parse_gen_write by by apply scc_json_wf. by apply scc_read.
Qed.

(* ---------------------------------------------------------------- *)
(** * BLS key maps *)

Lemma bls_map_deser_ok (l : list (string * bls_pub P)) :
  Forall (λ kv, bls_pub_deser K (bls_pub_ser K (snd kv)) = Some (snd kv)) l -> forall acc,
  bls_map_deser K acc (map (λ kv, (fst kv, bls_pub_ser K (snd kv))) l)
  = (fold_left (λ m kv, <[fst kv := snd kv]> m) l acc, true).
Proof.
  induction l as [|[k v] l IH]; intros H acc; [done|]. inversion H as [|? ? Hv Hl]; subst. cbn [snd] in Hv.
  cbn [map fst snd bls_map_deser fold_left]. rewrite Hv. by apply IH.
Qed.

Lemma fold_insert_any (f : gmap string (bls_pub P) -> string * bls_pub P -> gmap string (bls_pub P)) l acc :
  f = (λ m kv, <[fst kv := snd kv]> m) -> NoDup l.*1 -> fold_left f l acc = list_to_map l ∪ acc.
Proof.
  intros -> N. rewrite (fold_table (λ x, x)) by done. f_equal. f_equal.
  clear N. induction l as [|[a b] l IH]; [done|]. cbn. by f_equal.
Qed.

Lemma map_deser_perm l : forall acc, (forall id v, (id, v) ∈ l -> exists k, bls_pub_deser K v = Some k) ->
  NoDup l.*1 ->
  bls_map_deser K acc l = (list_to_map (omap (λ e, (λ k, (fst e, k)) <$> bls_pub_deser K (snd e)) l) ∪ acc, true).
Proof.
  induction l as [|[id v] l IH]; intros acc H N.
  - cbn. by rewrite (left_id_L ∅ (∪)).
  - destruct (H id v) as [k Ek]; [left|]. cbn [bls_map_deser omap list_omap fst snd]. rewrite Ek. cbn [fmap option_fmap option_map].
    apply NoDup_cons in N as [N1 N2]. rewrite IH; [|intros; eapply H; right; eassumption|done].
    f_equal. cbn. rewrite <- insert_union_l. symmetry. apply insert_union_r.
    apply not_elem_of_list_to_map_1. intros I. apply N1.
    apply elem_of_list_fmap in I as ((id' & k') & E & I). cbn in E. subst id'.
    apply elem_of_list_omap in I as ((id2 & v2) & I & E). cbn in E.
    destruct (bls_pub_deser K v2) as [k2|]; [|done]. cbn in E. injection E as -> _.
    apply elem_of_list_fmap. by exists (id, v2).
Qed.

Lemma bls_map_round m : (forall id k, m !! id = Some k -> bls_pub_deser K (bls_pub_ser K k) = Some k) ->
  bls_map_deser K ∅ (map_to_list (bls_map_ser K m)) = (m, true).
Proof.
  intros H. rewrite map_deser_perm; [| |apply NoDup_fst_map_to_list].
  - f_equal. rewrite (right_id_L ∅ (∪)). apply map_eq. intros id.
    set (l := omap _ _).
    assert (forall i k, (i, k) ∈ l <-> m !! i = Some k) as Hl.
    { intros i k. unfold l. rewrite elem_of_list_omap. split.
      - intros ((i2 & v) & I & E). apply elem_of_map_to_list in I. unfold bls_map_ser in I.
        rewrite lookup_fmap in I. destruct (m !! i2) as [k2|] eqn:E2; [|done]. injection I as <-.
        cbn in E. rewrite (H i2 k2 E2) in E. cbn in E. by injection E as <- <-.
      - intros E. exists (i, bls_pub_ser K k). split.
        + apply elem_of_map_to_list. unfold bls_map_ser. by rewrite lookup_fmap, E.
        + cbn. by rewrite (H i k E). }
    destruct (m !! id) as [k|] eqn:E.
    + apply elem_of_list_to_map_1'; [|by apply Hl]. intros k' I. apply Hl in I. congruence.
    + apply not_elem_of_list_to_map_1. intros I. apply elem_of_list_fmap in I as ((i & k) & -> & I).
      apply Hl in I. cbn in E. congruence.
  - intros id v I. apply elem_of_map_to_list in I. unfold bls_map_ser in I. rewrite lookup_fmap in I.
    destruct (m !! id) as [k|] eqn:E; [|done]. injection I as <-. exists k. by apply (H id).
Qed.

(* ---------------------------------------------------------------- *)
(** * Reading back *)

Lemma stored_ints c : ints_ok c -> scc_ints (new_stored K c).
Proof. done. Qed.

Theorem config_round_trip c : rsa_json_ok K -> ints_ok c -> bls_pubs_ok K c -> bls_sec_ok K c ->
  read_cconf K (write_cconf K c) = (c, true).
Proof.
  intros H Hi Hp Hs. unfold read_cconf, write_cconf. rewrite scc_parse_write by done.
  unfold new_cconf, new_stored. cbn [sc_self sc_threshold sc_n sc_hash sc_sign_scheme sc_thr_scheme sc_rsa_pubs sc_rsa_sec sc_bls_pubs sc_bls_sec].
  rewrite bls_map_round by done. rewrite Hs. rewrite Nat2Z.id. by destruct c.
Qed.

Theorem verify_only_no_secrets file :
  cc_rsa_sec (fst (read_verify_only K file)) = rsa_sec0 K /\ cc_bls_sec (fst (read_verify_only K file)) = bls_sec0 K.
Proof. unfold read_verify_only, new_verify_only. by destruct (bls_map_deser _ _ _). Qed.

Theorem verify_only_public c : rsa_json_ok K -> ints_ok c -> bls_pubs_ok K c ->
  same_public (fst (read_verify_only K (write_cconf K c))) c /\ snd (read_verify_only K (write_cconf K c)) = true.
Proof.
  intros H Hi Hp. unfold read_verify_only, write_cconf. rewrite scc_parse_write by done.
  unfold new_verify_only, new_stored. cbn [sc_self sc_threshold sc_n sc_hash sc_sign_scheme sc_thr_scheme sc_rsa_pubs sc_rsa_sec sc_bls_pubs sc_bls_sec].
  rewrite bls_map_round by done. cbn [fst snd]. rewrite Nat2Z.id. by unfold same_public.
Qed.

Lemma same_public_eq c d : same_public c d -> cc_rsa_sec c = cc_rsa_sec d -> cc_bls_sec c = cc_bls_sec d -> c = d.
Proof. destruct c, d. unfold same_public. cbn. intros (? & ? & ? & ? & ? & ? & ? & ?) ? ?. by subst. Qed.

Theorem verify_only_hides c d : rsa_json_ok K -> ints_ok c -> bls_pubs_ok K c -> same_public c d ->
  read_verify_only K (write_cconf K c) = read_verify_only K (write_cconf K d).
Proof.
  intros H Hi Hp E.
  assert (ints_ok d) as Hi'.
  { destruct E as (E1 & E2 & E3 & _). unfold ints_ok in *. by rewrite <- E1, <- E2, <- E3. }
  assert (bls_pubs_ok K d) as Hp'.
  { destruct E as (_ & _ & _ & _ & _ & _ & _ & E). unfold bls_pubs_ok in *. by rewrite <- E. }
  destruct (verify_only_public c H Hi Hp) as [A B]. destruct (verify_only_public d H Hi' Hp') as [A' B'].
  destruct (verify_only_no_secrets (write_cconf K c)) as [C D].
  destruct (verify_only_no_secrets (write_cconf K d)) as [C' D'].
  rewrite (surjective_pairing (read_verify_only K (write_cconf K c))), (surjective_pairing (read_verify_only K (write_cconf K d))).
  f_equal; [|congruence]. apply same_public_eq; [|congruence|congruence].
  unfold same_public in *. destruct A as (? & ? & ? & ? & ? & ? & ? & ?), A' as (? & ? & ? & ? & ? & ? & ? & ?), E as (? & ? & ? & ? & ? & ? & ? & ?).
  split_and!; congruence.
Qed.

Lemma same_public_verify c d : same_public c d ->
  (forall m sg, cc_verify c m sg = cc_verify d m sg) /\
  (forall m t, cc_thr_verify c m t = cc_thr_verify d m t) /\
  (forall m f, cc_frag_verify c m f = cc_frag_verify d m f) /\
  (forall m, cc_hash_msg c m = cc_hash_msg d m) /\
  (forall l, cc_thr_aggregate c l = cc_thr_aggregate d l).
Proof.
  destruct c, d. unfold same_public. cbn. intros (-> & -> & -> & -> & -> & -> & -> & ->). done.
Qed.

Theorem verify_only_verifies c : rsa_json_ok K -> ints_ok c -> bls_pubs_ok K c ->
  let v := fst (read_verify_only K (write_cconf K c)) in
  (forall m sg, cc_verify v m sg = cc_verify c m sg) /\
  (forall m t, cc_thr_verify v m t = cc_thr_verify c m t) /\
  (forall m f, cc_frag_verify v m f = cc_frag_verify c m f) /\
  (forall m, cc_hash_msg v m = cc_hash_msg c m) /\
  (forall l, cc_thr_aggregate v l = cc_thr_aggregate c l).
Proof. intros H Hi Hp v. apply same_public_verify. by apply verify_only_public. Qed.

Theorem basic_signs c : rsa_json_ok K -> ints_ok c ->
  let b := read_basic K (write_cconf K c) in
  (forall m, cc_sign b m = cc_sign c m) /\ (forall m sg, cc_verify b m sg = cc_verify c m sg) /\
  (forall m, cc_hash_msg b m = cc_hash_msg c m) /\
  (forall m, cc_thr_sign b m = None) /\ (forall l, cc_thr_aggregate b l = None) /\
  (forall m t, cc_thr_verify b m t = Reject) /\ (forall m f, cc_frag_verify b m f = Reject) /\
  cc_bls_sec b = bls_sec0 K.
Proof.
  intros H Hi b. unfold b, read_basic, write_cconf. rewrite scc_parse_write by done. done.
Qed.

(* ---------------------------------------------------------------- *)
(** * Damaged files *)

Theorem damaged_full file : parse_json file = None -> bls_sec_deser K "" = None -> snd (read_cconf K file) = false.
Proof.
  intros E H. unfold read_cconf, scc_parse. rewrite E. unfold new_cconf, scc0. cbn [sc_bls_pubs sc_bls_sec].
  rewrite map_to_list_empty. cbn [bls_map_deser]. by rewrite H.
Qed.

Theorem damaged_verify_only file : parse_json file = None ->
  snd (read_verify_only K file) = true /\ cc_rsa_pubs (fst (read_verify_only K file)) = ∅ /\
  cc_bls_pubs (fst (read_verify_only K file)) = ∅.
Proof.
  intros E. unfold read_verify_only, scc_parse. rewrite E. unfold new_verify_only, scc0. cbn [sc_bls_pubs sc_rsa_pubs].
  rewrite map_to_list_empty. done.
Qed.

(** A configuration whose threshold secret is empty (as for CAs, loggers
    and monitors) loads with an error but complete otherwise. *)
Theorem empty_secret s : rsa_json_ok K -> scc_ints s -> bls_sec_deser K "" = None -> sc_bls_sec s = "" ->
  (forall id v, sc_bls_pubs s !! id = Some v -> exists k, bls_pub_deser K v = Some k) ->
  snd (read_cconf K (gen_write (scc_json K s))) = false.
Proof.
  intros H Hi He Hs Hp. unfold read_cconf. rewrite scc_parse_gen by done. unfold new_cconf.
  rewrite map_deser_perm; [| |apply NoDup_fst_map_to_list].
  - by rewrite Hs, He.
  - intros id v I. apply elem_of_map_to_list in I. eauto.
Qed.

(* ---------------------------------------------------------------- *)
(** * Generated configurations *)

Section gen.
Context (rsa_rand : nat -> rsa_sec P) (bls_rand : nat -> bls_sec P).

Lemma rsa_gen_match ids : forall i pubs privs,
  (forall id, pubs !! id = rsa_pub_of K <$> privs !! id) ->
  let '(pubs', privs') := rsa_gen K rsa_rand i ids pubs privs in
  forall id, pubs' !! id = rsa_pub_of K <$> privs' !! id.
Proof.
  induction ids as [|x ids IH]; intros i pubs privs H; [done|]. cbn [rsa_gen]. apply IH.
  intros id. destruct (decide (id = x)) as [->|N].
  - by rewrite !lookup_insert.
  - rewrite !lookup_insert_ne by done. apply H.
Qed.

Lemma rsa_gen_keeps ids : forall i pubs privs id,
  is_Some (privs !! id) \/ id ∈ ids -> is_Some ((rsa_gen K rsa_rand i ids pubs privs).2 !! id).
Proof.
  induction ids as [|x ids IH]; intros i pubs privs id H.
  - destruct H as [H|H]; [done|]. by apply elem_of_nil in H.
  - cbn [rsa_gen]. apply IH. destruct (decide (id = x)) as [->|N].
    + left. rewrite lookup_insert. eauto.
    + destruct H as [H|H]; [left; by rewrite lookup_insert_ne|right].
      apply elem_of_cons in H as [H|H]; done.
Qed.

Lemma bls_gen_match t ids : forall i pubs privs,
  (forall id, pubs !! id = bls_pub_of K <$> privs !! id) ->
  let '(pubs', privs') := bls_gen K bls_rand t i ids pubs privs in
  forall id, pubs' !! id = bls_pub_of K <$> privs' !! id.
Proof.
  induction ids as [|x ids IH]; intros i pubs privs H; [done|]. cbn [bls_gen]. apply IH.
  intros id. destruct (decide (id = x)) as [->|N].
  - by rewrite !lookup_insert.
  - rewrite !lookup_insert_ne by done. apply H.
Qed.

Lemma bls_gen_keeps t ids : forall i pubs privs id,
  is_Some (privs !! id) \/ id ∈ ids -> is_Some ((bls_gen K bls_rand t i ids pubs privs).2 !! id).
Proof.
  induction ids as [|x ids IH]; intros i pubs privs id H.
  - destruct H as [H|H]; [done|]. by apply elem_of_nil in H.
  - cbn [bls_gen]. apply IH. destruct (decide (id = x)) as [->|N].
    + left. rewrite lookup_insert. eauto.
    + destruct H as [H|H]; [left; by rewrite lookup_insert_ne|right].
      apply elem_of_cons in H as [H|H]; done.
Qed.

Notation configs := (entity_configs K rsa_rand bls_rand).

Lemma configs_shape ids t cs : configs ids t = Some cs ->
  exists (rp : gmap string (rsa_pub P)) (rs : gmap string (rsa_sec P)) (bp : gmap string (bls_pub P)) (bs : gmap string (bls_sec P)), (forall id, rp !! id = rsa_pub_of K <$> rs !! id) /\ (forall id, bp !! id = bls_pub_of K <$> bs !! id) /\
    (forall id, id ∈ ids -> is_Some (rs !! id)) /\ (forall id, id ∈ ids -> is_Some (bs !! id)) /\
    cs = map (λ id, mkcconf P t (Z.of_nat (length ids)) 4 "rsa" "bls" id rp
                         (default (rsa_sec0 K) (rs !! id)) bp (default (bls_sec0 K) (bs !! id))) ids.
Proof.
  unfold entity_configs, threshold_keypairs. destruct (Nat.ltb t 2); [done|].
  pose proof (bls_gen_match t ids 0 ∅ ∅) as B. pose proof (bls_gen_keeps t ids 0 ∅ ∅) as B'.
  destruct (bls_gen K bls_rand t 0 ids ∅ ∅) as [bp bs].
  pose proof (rsa_gen_match ids 0 ∅ ∅) as R. pose proof (rsa_gen_keeps ids 0 ∅ ∅) as R'.
  destruct (rsa_gen K rsa_rand 0 ids ∅ ∅) as [rp rs]. intros [= <-].
  exists rp, rs, bp, bs. split_and!; try done.
  - apply R. intros id. by rewrite !lookup_empty.
  - apply B. intros id. by rewrite !lookup_empty.
  - intros id I. apply R'. by right.
  - intros id I. apply B'. by right.
Qed.

Theorem configs_interoperate ids t cs c d : rsa_correct K -> bls_correct K ->
  configs ids t = Some cs -> c ∈ cs -> d ∈ cs -> forall m,
  (exists sg, cc_sign c m = Some sg /\ rs_id sg = cc_self c /\ cc_verify d m sg = Accept) /\
  (exists f, cc_thr_sign c m = Some f /\ sf_id f = cc_self c /\ cc_frag_verify d m f = Accept).
Proof.
  intros HR HB E Ic Id m. apply configs_shape in E as (rp & rs & bp & bs & R & B & R' & B' & ->).
  apply elem_of_list_fmap in Ic as (i & -> & Ii). apply elem_of_list_fmap in Id as (j & -> & Ij).
  destruct (R' i Ii) as [rk Erk], (B' i Ii) as [bk Ebk]. split.
  - eexists. split; [reflexivity|]. split; [done|]. unfold cc_verify. cbn [cc_sign_scheme cc_rsa_pubs rs_id rs_sig cc_self cc_rsa_sec].
    rewrite R, Erk. cbn. by rewrite HR.
  - eexists. split; [reflexivity|]. split; [done|]. unfold cc_frag_verify, Crypto.bls_key.
    cbn [cc_thr_scheme cc_bls_pubs sf_id sf_sign cc_self cc_bls_sec]. rewrite B, Ebk. cbn. by rewrite HB.
Qed.

Theorem configs_own ids t cs : configs ids t = Some cs ->
  map cc_self cs = ids /\ Forall (λ c, cc_threshold c = t /\ cc_n c = Z.of_nat (length ids) /\
     (forall m, cc_hash_msg c m = Some (h_sha256 P m)) /\
     cc_hash c = 4%Z /\ cc_sign_scheme c = "rsa" /\ cc_thr_scheme c = "bls") cs.
Proof.
  intros E. apply configs_shape in E as (rp & rs & bp & bs & R & B & R' & B' & ->). split.
  - rewrite map_map. cbn. by rewrite map_id.
  - apply Forall_fmap, Forall_true. intros x. done.
Qed.

Theorem configs_threshold ids t : is_Some (configs ids t) <-> 2 <= t.
Proof.
  unfold entity_configs, threshold_keypairs. destruct (Nat.ltb t 2) eqn:E.
  - apply Nat.ltb_lt in E. split; [by intros [? ?]|lia].
  - apply Nat.ltb_ge in E. destruct (bls_gen _ _ _ _ _ _ _), (rsa_gen _ _ _ _ _ _). split; [done|eauto].
Qed.

(** Two configurations of the same entity in a generated list are equal. *)
Lemma configs_same ids t cs c d : configs ids t = Some cs -> c ∈ cs -> d ∈ cs -> cc_self c = cc_self d -> c = d.
Proof.
  intros E Ic Id Es. apply configs_shape in E as (rp & rs & bp & bs & _ & _ & _ & _ & ->).
  apply elem_of_list_fmap in Ic as (i & -> & Ii). apply elem_of_list_fmap in Id as (j & -> & Ij).
  cbn in Es. by subst.
Qed.

End gen.

(* ---------------------------------------------------------------- *)
(** * Saved files *)

Lemma crypto_file_inj dir a b : crypto_file dir a = crypto_file dir b -> a = b.
Proof.
  unfold crypto_file. intros E. apply app_inj_l in E. cbn in E. injection E as E. by apply app_inj_r in E.
Qed.

Lemma save_other dir cs : forall fs p, (forall c, c ∈ cs -> crypto_file dir (cc_self c) <> p) ->
  save_crypto_files K dir cs fs !! p = fs !! p.
Proof.
  induction cs as [|c cs IH]; intros fs p H; [done|]. unfold save_crypto_files. cbn [fold_left].
  change (save_crypto_files K dir cs (<[crypto_file dir (cc_self c) := write_cconf K c]> fs) !! p = fs !! p).
  rewrite IH; [|intros; apply H; by right]. apply lookup_insert_ne. apply H. left.
Qed.

Lemma save_files dir cs : forall fs c, c ∈ cs -> (forall d, d ∈ cs -> cc_self d = cc_self c -> d = c) ->
  save_crypto_files K dir cs fs !! crypto_file dir (cc_self c) = Some (write_cconf K c).
Proof.
  induction cs as [|x cs IH]; intros fs c I H; [by apply elem_of_nil in I|].
  unfold save_crypto_files. cbn [fold_left].
  change (save_crypto_files K dir cs (<[crypto_file dir (cc_self x) := write_cconf K x]> fs) !! crypto_file dir (cc_self c) = Some (write_cconf K c)).
  destruct (decide (Exists (λ d, cc_self d = cc_self c) cs)) as [D|D].
  - apply Exists_exists in D as (d & Id & Ed). rewrite <- (H d) by (done || by right).
    apply IH; [done|]. intros e Ie Ee. rewrite (H d) by (done || by right). apply H; [by right|]. by rewrite Ee.
  - assert (x = c) as ->.
    { apply elem_of_cons in I as [->|I]; [done|]. exfalso. apply D. apply Exists_exists. eauto. }
    rewrite save_other; [apply lookup_insert|]. intros d Id E. apply crypto_file_inj in E. apply D.
    apply Exists_exists. eauto.
Qed.

Theorem saved_read rsa_rand bls_rand ids t cs dir fs c : rsa_json_ok K ->
  (forall k, bls_pub_deser K (bls_pub_ser K k) = Some k) -> (forall k, bls_sec_deser K (bls_sec_ser K k) = Some k) ->
  go_int (Z.of_nat t) -> go_int (Z.of_nat (length ids)) ->
  entity_configs K rsa_rand bls_rand ids t = Some cs -> c ∈ cs ->
  exists file, save_crypto_files K dir cs fs !! (dir ++ "/" ++ cc_self c ++ ".test.json") = Some file /\
    read_cconf K file = (c, true).
Proof.
  intros H Hp Hs Ht Hn E I. exists (write_cconf K c). split.
  - apply save_files; [done|]. intros d Id Ed. by apply (configs_same _ _ _ _ _ _ _ E).
  - apply config_round_trip; [done| |intros id k _; apply Hp|apply Hs].
    apply configs_own in E as [_ E]. rewrite Forall_forall in E. destruct (E c I) as (Et & Ec & _ & Eh & _).
    unfold ints_ok. rewrite Et, Ec, Eh. split_and!; try done. all: unfold go_int in *; lia.
Qed.

End io.
