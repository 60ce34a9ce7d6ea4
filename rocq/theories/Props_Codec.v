(** C07, C26-C30: identifiers and text formats. *)
From Verif Require Import Bytes Hex Base64 Json Types Crypto Verify Prog Gossiper Toy SpecCodec SpecVerify CodecFacts Base64Facts CryptoFacts WireFacts RefuteCodec.
From Coq Require Import Sorting.
Open Scope string_scope.

(** C07: two objects have the same identifier exactly if period, type and
    entity agree. *)
Theorem C07_id_iff : forall g h, get_id g = get_id h <->
  g_period g = g_period h /\ g_type g = g_type h /\ g_p0 g = g_p0 h.
Proof. exact get_id_iff. Qed.
Print Assumptions C07_id_iff.

Theorem C07_target_type : forall g,
  target_type g =
  if bool_decide (g_type g = STH_INIT) then STH_FRAG
  else if bool_decide (g_type g = REV_INIT) then REV_FRAG
  else if bool_decide (g_type g = ACC_INIT) then ACC_FRAG
  else if bool_decide (g_type g = STH_FRAG) then STH_FULL
  else if bool_decide (g_type g = REV_FRAG) then REV_FULL
  else if bool_decide (g_type g = ACC_FRAG) then ACC_FULL
  else "".
Proof. exact target_type_spec. Qed.
Print Assumptions C07_target_type.

Theorem C07_stages_apart : forall g h k, is_init g -> is_frag h -> is_full k ->
  get_id g <> get_id h /\ get_id h <> get_id k /\ get_id g <> get_id k.
Proof. exact stages_apart. Qed.
Print Assumptions C07_stages_apart.

Example C07_ex : is_init (toy_init REV_INIT "07" "k1" "localhost:9100" "x" "y") /\
  is_frag (toy_frag REV_FRAG "07" "g2" 10 "localhost:9000" "x" "y").
Proof. vm_compute. tauto. Qed.

(** The printed form used as a label is ambiguous. *)
Theorem C07_printed_id_refuted : exists i j, i <> j /\ gid_string i = gid_string j.
Proof. exact gid_string_refuted. Qed.
Print Assumptions C07_printed_id_refuted.

(** C26: RSA signature strings. *)
Theorem C26_rsasig_roundtrip_partial : forall s, plain_id (rs_id s) = true ->
  rsasig_from_string (rsasig_string s) = Some s.
Proof. exact rsasig_roundtrip. Qed.
Print Assumptions C26_rsasig_roundtrip_partial.

Theorem C26_rsasig_string_injective : forall a b, rsasig_string a = rsasig_string b -> a = b.
Proof. exact rsasig_string_inj. Qed.
Print Assumptions C26_rsasig_string_injective.

Theorem C26_rsasig_roundtrip_refuted : exists s, rsasig_from_string (rsasig_string s) <> Some s.
Proof. exact rsasig_roundtrip_refuted. Qed.
Print Assumptions C26_rsasig_roundtrip_refuted.

Theorem C26_identity_injection : exists s s', rsasig_from_string (rsasig_string s) = Some s' /\
  rs_sig s' <> rs_sig s /\ rs_id s' = "victim".
Proof. exact rsasig_injection. Qed.
Print Assumptions C26_identity_injection.

Example C26_ex : plain_id "http://ctng.uconn.edu:8080/logger-1?x=1&y=%20" = true.
Proof. reflexivity. Qed.

(** C27: fragments and aggregates. *)
Theorem C27_sigfrag_roundtrip : forall (P : prims) (s : sigfrag P), plain_id (sf_id s) = true ->
  bls_deser (bls_ser (sf_sign s)) = Some (sf_sign s) ->
  sigfrag_from_string (sigfrag_string s) = (s, true).
Proof. exact @sigfrag_roundtrip. Qed.
Print Assumptions C27_sigfrag_roundtrip.

Theorem C27_thrsig_roundtrip : forall (P : prims) (t : thrsig P),
  bls_deser (bls_ser (ts_sign t)) = Some (ts_sign t) ->
  thrsig_from_string (thrsig_string t) = (t, true).
Proof. exact @thrsig_roundtrip. Qed.
Print Assumptions C27_thrsig_roundtrip.

Example C27_ex : thrsig_string (P:=toy) (mkthr (P:=toy) ["a""b"; "c\d"] 12%Z)
  = "{""sign"":""3132"", ""ids"":[""a\""b"",""c\\d""]}".
Proof. reflexivity. Qed.

(** C28: aggregation. *)
Theorem C28_aggregate_fails_iff : forall (P : prims) (l : list (sigfrag P)) n,
  thr_aggregate l n = None <-> length l < n.
Proof. exact @aggregate_fails_iff. Qed.
Print Assumptions C28_aggregate_fails_iff.

Theorem C28_aggregate_ids : forall (P : prims) (l : list (sigfrag P)) n t, thr_aggregate l n = Some t ->
  ts_ids t ≡ₚ map sf_id l /\ Sorted str_le (ts_ids t) /\ ts_sign t = bls_agg (map sf_sign l).
Proof. exact @aggregate_ids. Qed.
Print Assumptions C28_aggregate_ids.

Theorem C28_aggregate_order : forall (P : prims) (l1 l2 : list (sigfrag P)) n,
  (forall a b : list (bls_sig P), a ≡ₚ b -> bls_agg a = bls_agg b) ->
  l1 ≡ₚ l2 -> thr_aggregate l1 n = thr_aggregate l2 n.
Proof. exact @aggregate_perm. Qed.
Print Assumptions C28_aggregate_order.

Example C28_ex : thr_aggregate (P:=toy) [mkfrag (P:=toy) 5%Z "g2"; mkfrag (P:=toy) 7%Z "g1"] 2
  = Some (mkthr (P:=toy) ["g1"; "g2"] 12%Z).
Proof. reflexivity. Qed.

(** C29: the wire. *)
Theorem C29_object_roundtrip : forall g, gobj_decode (gobj_marshal g) = Some g.
Proof. exact gobj_roundtrip. Qed.
Print Assumptions C29_object_roundtrip.

Theorem C29_object_stream : forall g r, gobj_decode (gobj_marshal g ++ String "010" r) = Some g.
Proof. exact gobj_roundtrip_stream. Qed.
Print Assumptions C29_object_stream.

Theorem C29_sth_roundtrip : forall x, sth_unmarshal (sth_marshal x) = Some x.
Proof. exact sth_roundtrip. Qed.
Print Assumptions C29_sth_roundtrip.

Theorem C29_notification_roundtrip : forall n, note_decode (note_marshal n) = Some n.
Proof. exact note_roundtrip. Qed.
Print Assumptions C29_notification_roundtrip.

(** An escaped code point is read as its UTF-8 encoding (half of a surrogate pair as U+FFFD). *)
Theorem C29_escape : forall hi lo r, let n := (N_of_ascii hi * 256 + N_of_ascii lo)%N in
  exists s, parse_str_body (String "\" (String "u" (hex_encode (String hi (String lo "")) ++ String """" r))) = Some (s, r) /\
    utf8_value s = Some (if ((55296 <=? n) && (n <? 57344))%N then 65533%N else n).
Proof. exact escape_right. Qed.
Print Assumptions C29_escape.

(** C30: text codecs. *)
Theorem C30_hex : forall s, hex_decode (hex_encode s) = Some s.
Proof. exact hex_roundtrip. Qed.
Print Assumptions C30_hex.

Theorem C30_hex_canonical : forall s b, hex_decode s = Some b -> hex_encode b = lower_str s.
Proof. exact hex_decode_encode. Qed.
Print Assumptions C30_hex_canonical.

Theorem C30_base64 : forall s, b64_decode (b64_encode s) = Some s.
Proof. exact b64_roundtrip. Qed.
Print Assumptions C30_base64.

Theorem C30_decimal : forall z, atoi (itoa z) = Some z.
Proof. exact atoi_itoa. Qed.
Print Assumptions C30_decimal.
