(** Proofs about signature strings and aggregation. *)
From Verif Require Import Bytes Hex Json Types Crypto SpecCodec CodecFacts JsonFacts.
From Coq Require Import Lia Sorting.
From stdpp Require Import sorting.
Open Scope string_scope.

Lemma parse_plain_char (c : ascii) (r : string) : plain_char c = true ->
  parse_str_body (String c r) =
  match parse_str_body r with Some (t, rest) => Some (String c t, rest) | None => None end.
Proof.
  intros H. destruct c as [[] [] [] [] [] [] [] []]; try discriminate H; cbn; reflexivity.
Qed.

Lemma parse_plain (s r : string) : plain_id s = true -> parse_str_body (s ++ String quote r) = Some (s, r).
Proof.
  induction s as [|c s IH]; intros H; [done|]. cbn in H. apply andb_true_iff in H as [Hc Hs].
  change (String c s ++ String quote r) with (String c (s ++ String quote r)).
  rewrite (parse_plain_char _ _ Hc), (IH Hs). done.
Qed.

Lemma plain_hex_digit b0 b1 b2 b3 : plain_char (hex_digit b0 b1 b2 b3) = true.
Proof. by destruct b0, b1, b2, b3. Qed.

Lemma plain_hex (s : string) : plain_id (hex_encode s) = true.
Proof.
  induction s as [|[b0 b1 b2 b3 b4 b5 b6 b7] s IH]; [done|].
  cbn [hex_encode plain_id]. by rewrite !plain_hex_digit, IH.
Qed.

(** The two-field object written by the Sprintf calls. *)
Lemma unmarshal_pair (k1 v1 k2 v2 : string) :
  plain_id k1 = true -> plain_id v1 = true -> plain_id k2 = true -> plain_id v2 = true ->
  unmarshal_string_map ("{""" ++ k1 ++ """:""" ++ v1 ++ """,""" ++ k2 ++ """:""" ++ v2 ++ """}")
  = Some (<[k2 := v2]> (<[k1 := v1]> ∅)).
Proof.
  intros H1 H2 H3 H4. unfold unmarshal_string_map, parse_json.
  set (s := "{""" ++ _).
  assert (exists m, len s = S (S (S (S m)))) as [m Hm].
  { exists (len s - 4). unfold s. rewrite !len_app.
    change (len "{""") with 2. change (len """}") with 2. lia. }
  rewrite Hm. unfold s. cbn [String.append].
  cbn [parse_val skip_ws is_ws parse_members].
  change (String """" ?x) with (String quote x).
  rewrite (parse_plain k1 _ H1). cbn [parse_val skip_ws is_ws parse_members].
  change (String """" ?x) with (String quote x).
  rewrite (parse_plain v1 _ H2). cbn [parse_val skip_ws is_ws parse_members].
  rewrite (parse_plain k2 _ H3). cbn [parse_val skip_ws is_ws parse_members].
  rewrite (parse_plain v2 _ H4). cbn. done.
Qed.

Lemma rsasig_roundtrip (s : rsasig) : plain_id (rs_id s) = true ->
  rsasig_from_string (rsasig_string s) = Some s.
Proof.
  intros H. destruct s as [b id]. cbn in H. unfold rsasig_from_string, rsasig_string.
  cbn [rs_sig rs_id].
  pose proof (unmarshal_pair "sig" (hex_encode b) "id" id eq_refl (plain_hex b) eq_refl H) as E.
  cbn [String.append] in E |- *. rewrite E.
  unfold map_get. rewrite lookup_insert_ne, lookup_insert; [|done].
  rewrite lookup_insert. by rewrite hex_roundtrip.
Qed.

Lemma plain_prefix_inj (a b x y : string) : plain_id a = true -> plain_id b = true ->
  a ++ String quote x = b ++ String quote y -> a = b /\ x = y.
Proof.
  intros Ha Hb H. apply (f_equal parse_str_body) in H.
  rewrite (parse_plain _ _ Ha), (parse_plain _ _ Hb) in H. by injection H as -> ->.
Qed.

(** Distinct signatures have distinct strings, whatever the identity. *)
Lemma rsasig_string_inj (a b : rsasig) : rsasig_string a = rsasig_string b -> a = b.
Proof.
  destruct a as [s i], b as [s' i']. unfold rsasig_string. cbn [rs_sig rs_id]. intros H.
  apply app_inj_l in H. cbn [String.append] in H.
  apply plain_prefix_inj in H as [Hs H]; [|apply plain_hex|apply plain_hex].
  apply hex_encode_inj in Hs as ->. injection H as H. by apply app_inj_r in H as ->.
Qed.

Section with_prims.
Context {P : prims}.

Lemma sigfrag_roundtrip (s : sigfrag P) : plain_id (sf_id s) = true ->
  bls_deser (bls_ser (sf_sign s)) = Some (sf_sign s) ->
  sigfrag_from_string (sigfrag_string s) = (s, true).
Proof.
  intros H Hd. destruct s as [b id]. cbn in H, Hd. unfold sigfrag_from_string, sigfrag_string.
  cbn [sf_sign sf_id].
  pose proof (unmarshal_pair "sign" (hex_encode (bls_ser b)) "id" id eq_refl (plain_hex _) eq_refl H) as E.
  cbn [String.append] in E |- *. rewrite E.
  unfold map_get. rewrite lookup_insert_ne, lookup_insert; [|done].
  rewrite lookup_insert. unfold bls_deser_hex. by rewrite hex_roundtrip, Hd.
Qed.

Lemma thr_unmarshal_string (h : string) (ids : list string) : plain_id h = true ->
  thr_unmarshal ("{""sign"":""" ++ h ++ """, ""ids"":" ++ print_json (JArr (map JStr ids)) ++ "}") = Some (h, ids).
Proof.
  intros Hh. unfold thr_unmarshal, parse_json.
  set (arr := JArr (map JStr ids)). set (s := "{""sign"":""" ++ _).
  assert (wf_json arr) as W by apply wf_strs.
  pose proof (fuel_len arr W) as Hf.
  assert (exists m, len s = S (S m) /\ fuel arr <= m) as (m & Hm & Hfm).
  { exists (len s - 2). unfold s. rewrite !len_app.
    change (len "{""sign"":""") with 9. split; lia. }
  rewrite Hm. unfold s. cbn [String.append].
  cbn [parse_val skip_ws is_ws parse_members].
  change (String """" ?x) with (String quote x).
  assert (forall x, parse_str_body (String "s" (String "i" (String "g" (String "n" (String quote x))))) = Some ("sign", x)) as E1
    by done.
  assert (forall x, parse_str_body (String "i" (String "d" (String "s" (String quote x)))) = Some ("ids", x)) as E2
    by done.
  rewrite E1. cbn [parse_val skip_ws is_ws parse_members].
  rewrite (parse_plain h _ Hh). cbn [parse_val skip_ws is_ws parse_members].
  rewrite E2. cbn [skip_ws is_ws].
  rewrite (parse_print arr W); [|lia|done].
  cbn [skip_ws is_ws is_empty thr_fields]. cbn. by rewrite dec_strings_map.
Qed.

Lemma thrsig_roundtrip (t : thrsig P) : bls_deser (bls_ser (ts_sign t)) = Some (ts_sign t) ->
  thrsig_from_string (thrsig_string t) = (t, true).
Proof.
  intros Hd. destruct t as [ids b]. cbn in Hd. unfold thrsig_from_string, thrsig_string.
  cbn [ts_sign ts_ids].
  rewrite (thr_unmarshal_string _ ids (plain_hex _)). unfold bls_deser_hex. by rewrite hex_roundtrip, Hd.
Qed.

(* ---------------------------------------------------------------- *)
(** * Sorting *)


Lemma str_ltb_irrefl a : str_ltb a a = false.
Proof. induction a as [|c a IH]; [done|]. cbn. by rewrite N.ltb_irrefl, IH. Qed.

Lemma str_ltb_trans a b c : str_ltb a b = true -> str_ltb b c = true -> str_ltb a c = true.
Proof.
  revert b c. induction a as [|x a IH]; intros [|y b] [|z c]; cbn; try done.
  destruct (N.ltb_spec (N_of_ascii x) (N_of_ascii y)); destruct (N.ltb_spec (N_of_ascii y) (N_of_ascii z));
  destruct (N.ltb_spec (N_of_ascii y) (N_of_ascii x)); destruct (N.ltb_spec (N_of_ascii z) (N_of_ascii y));
  destruct (N.ltb_spec (N_of_ascii x) (N_of_ascii z)); destruct (N.ltb_spec (N_of_ascii z) (N_of_ascii x));
  try done; try lia. apply IH.
Qed.

Lemma str_ltb_total a b : str_ltb a b = false -> str_ltb b a = false -> a = b.
Proof.
  revert b. induction a as [|x a IH]; intros [|y b]; cbn; try done.
  destruct (N.ltb_spec (N_of_ascii x) (N_of_ascii y)); destruct (N.ltb_spec (N_of_ascii y) (N_of_ascii x)); try done.
  intros H1 H2. f_equal; [|by apply IH].
  rewrite <- (ascii_N_embedding x), <- (ascii_N_embedding y). f_equal. lia.
Qed.

Lemma str_ltb_asym a b : str_ltb a b = true -> str_ltb b a = false.
Proof.
  intros H. destruct (str_ltb b a) eqn:E; [|done].
  pose proof (str_ltb_trans _ _ _ H E) as C. by rewrite str_ltb_irrefl in C.
Qed.

Global Instance str_le_trans : Transitive str_le.
Proof.
  intros a b c. unfold str_le, str_leb. rewrite !negb_true_iff. intros H1 H2.
  destruct (str_ltb c a) eqn:E; [|done].
  destruct (str_ltb a b) eqn:E1.
  - pose proof (str_ltb_trans _ _ _ E E1). congruence.
  - assert (a = b) as -> by by apply str_ltb_total. congruence.
Qed.

Global Instance str_le_antisymm : AntiSymm (=) str_le.
Proof. intros a b. unfold str_le, str_leb. rewrite !negb_true_iff. intros. by apply str_ltb_total. Qed.

Lemma insert_id_perm x l : insert_id x l ≡ₚ x :: l.
Proof.
  induction l as [|y l IH]; [done|]. cbn. destruct (str_ltb y x); [|done].
  rewrite IH. constructor.
Qed.

Lemma sort_ids_perm l : sort_ids l ≡ₚ l.
Proof. induction l as [|x l IH]; [done|]. cbn. by rewrite insert_id_perm, IH. Qed.

Lemma insert_id_sorted x l : StronglySorted str_le l -> StronglySorted str_le (insert_id x l).
Proof.
  induction 1 as [|y l Hs IH Hf]; [repeat constructor|]. cbn. destruct (str_ltb y x) eqn:E.
  - constructor; [done|]. rewrite insert_id_perm. constructor; [|done].
    unfold str_le, str_leb. by rewrite (str_ltb_asym _ _ E).
  - constructor; [by constructor|]. assert (str_le x y) as Hxy by (unfold str_le, str_leb; by rewrite E).
    constructor; [done|]. eapply Forall_impl; [exact Hf|]. intros z Hz. by transitivity y.
Qed.

Lemma sort_ids_sorted l : StronglySorted str_le (sort_ids l).
Proof. induction l; cbn; [constructor|by apply insert_id_sorted]. Qed.

Lemma sort_ids_perm_eq l1 l2 : l1 ≡ₚ l2 -> sort_ids l1 = sort_ids l2.
Proof.
  intros H. eapply StronglySorted_unique; [typeclasses eauto|apply sort_ids_sorted..|].
  by rewrite !sort_ids_perm.
Qed.

End with_prims.
