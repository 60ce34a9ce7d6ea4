(** Round trips of the JSON wire formats. *)
From Verif Require Import Bytes Hex Base64 Json Types Crypto Verify Gossiper CodecFacts JsonFacts Base64Facts.
From Verif Require Import SpecCodec.
Open Scope string_scope.

Lemma wf_gobj g : wf_json (gobj_json g).
Proof.
  destruct g as [a p t s ss s0 s1 ti sc p0 p1 p2]. unfold gobj_json. constructor.
  cbn [g_app g_period g_type g_signer g_signers g_s0 g_s1 g_time g_scheme g_p0 g_p1 g_p2].
  rewrite !Forall_app. split; [repeat constructor|split; [|repeat constructor]].
  destruct ss; [constructor|]. constructor; [|constructor]. cbn [snd]. apply (wf_strs (s2 :: ss)).
Qed.

Definition gobj_of_json (v : json) : option gobj :=
  match v with JObj l => gobj_fields zero_obj l | JNull => Some zero_obj | _ => None end.

Lemma gobj_decode_eq s : gobj_decode s = match decode_json s with Some v => gobj_of_json v | None => None end.
Proof. unfold gobj_decode. by destruct (decode_json s) as [[]|]. Qed.

Lemma gobj_of_json_json g : gobj_of_json (gobj_json g) = Some g.
Proof.
  destruct g as [a p t s ss s0 s1 ti sc p0 p1 p2]. unfold gobj_json.
  cbn [g_app g_period g_type g_signer g_signers g_s0 g_s1 g_time g_scheme g_p0 g_p1 g_p2].
  destruct ss as [|x ss]; [reflexivity|].
  transitivity (match dec_strings (map JStr (x :: ss)) with
                | Some y => Some (mkobj a p t s y s0 s1 ti sc p0 p1 p2)
                | None => None
                end); [|by rewrite dec_strings_map].
  generalize (map JStr (x :: ss)). intros l.
  cbn [app]. unfold gobj_of_json. cbn [gobj_fields]. cbn [gobj_field dec_string_slice].
  change (lower_str "application") with "application". change (lower_str "period") with "period".
  change (lower_str "type") with "type". change (lower_str "signer") with "signer".
  change (lower_str "signers") with "signers".
  cbn [zero_obj String.eqb Ascii.eqb Bool.eqb dec_string mbind option_bind].
  destruct (dec_strings l); [|reflexivity]. reflexivity.
Qed.

Lemma gobj_roundtrip g : gobj_decode (gobj_marshal g) = Some g.
Proof.
  rewrite gobj_decode_eq. unfold gobj_marshal. rewrite decode_json_print0 by apply wf_gobj.
  apply gobj_of_json_json.
Qed.

(** Trailing bytes starting with a newline (json.Encoder) are ignored. *)
Lemma gobj_roundtrip_stream g r : gobj_decode (gobj_marshal g ++ String "010" r) = Some g.
Proof.
  rewrite gobj_decode_eq. unfold gobj_marshal.
  rewrite decode_json_print; [|apply wf_gobj|reflexivity].
  apply gobj_of_json_json.
Qed.

Lemma gobj_marshal_inj g h : gobj_marshal g = gobj_marshal h -> g = h.
Proof. intros H. apply (f_equal gobj_decode) in H. rewrite !gobj_roundtrip in H. congruence. Qed.

Lemma sth_roundtrip x : sth_unmarshal (sth_marshal x) = Some x.
Proof.
  unfold sth_unmarshal, sth_marshal. rewrite parse_json_print.
  - destruct x as [a b c d e]. unfold sth_json. cbn [sth_signer sth_timestamp sth_period sth_root sth_size].
    transitivity (match atoi (itoa e) with Some y => Some (mksth a b c d y) | None => None end);
      [|by rewrite atoi_itoa].
    generalize (itoa e). intros t.
    change (sth_fields zero_sth _) with (sth_fields (mksth a b c d 0) [("TreeSize", JNum t)]).
    cbn [sth_fields sth_field dec_int]. change (lower_str "TreeSize") with "treesize".
    cbn [String.eqb Ascii.eqb Bool.eqb]. by destruct (atoi t).
  - unfold sth_json. repeat constructor; apply num_ok_itoa.
Qed.

Lemma note_roundtrip n : note_decode (note_marshal n) = Some n.
Proof.
  unfold note_decode, note_marshal. rewrite decode_json_print0.
  - destruct n as [a b c d e]. unfold note_json. cbn [n_sender n_period n_type n_entity n_hash].
    transitivity (match b64_decode (b64_encode e) with Some y => Some (mknote a b c d y) | None => None end);
      [|by rewrite b64_roundtrip].
    generalize (b64_encode e). intros t.
    change (note_fields _ _) with (note_fields (mknote a b c d "") [("objhash", JStr t)]).
    cbn [note_fields note_field]. change (lower_str "objhash") with "objhash".
    cbn [String.eqb Ascii.eqb Bool.eqb]. by destruct (b64_decode t).
  - unfold note_json. repeat constructor.
Qed.

(** Escapes of code points. *)
Lemma chr_code n : (n < 256)%N -> N_of_ascii (ascii_of_N n) = n.
Proof. apply N_ascii_embedding. Qed.

Ltac settle_bounds := repeat match goal with
  | |- context [N.leb ?a ?b] => destruct (N.leb_spec a b); [|exfalso; lia]
  | |- context [N.ltb ?a ?b] => destruct (N.ltb_spec a b); [|exfalso; lia]
  end; cbn [andb].
Lemma utf8_right n : (n < 65536)%N -> utf8_value (utf8_encode n) = Some n.
Proof.
  intros Hn. unfold utf8_encode, chr. destruct (N.ltb_spec n 128) as [H1|H1]; [|destruct (N.ltb_spec n 2048) as [H2|H2]]; cbn [append utf8_value].
  - rewrite chr_code by lia. by settle_bounds.
  - assert (n mod 64 < 64)%N as M by (apply N.mod_lt; lia). pose proof (N.div_mod n 64 ltac:(lia)) as E. assert (n / 64 < 32)%N as D by (apply N.div_lt_upper_bound; lia).
    revert M E D. generalize (n mod 64)%N (n / 64)%N. intros p q M E D. rewrite !chr_code by lia. settle_bounds. f_equal. lia.
  - assert (n mod 64 < 64)%N as M by (apply N.mod_lt; lia). assert ((n / 64) mod 64 < 64)%N as M2 by (apply N.mod_lt; lia).
    pose proof (N.div_mod n 64 ltac:(lia)) as E. pose proof (N.div_mod (n / 64) 64 ltac:(lia)) as E2. rewrite N.div_div in E2 by lia. change (64 * 64)%N with 4096%N in E2.
    assert (n / 4096 < 16)%N as D by (apply N.div_lt_upper_bound; lia).
    revert M M2 E E2 D. generalize ((n / 64) mod 64)%N. intros q. generalize (n mod 64)%N (n / 4096)%N (n / 64)%N. intros p t v M M2 E E2 D. rewrite !chr_code by lia. settle_bounds. f_equal. lia.
Qed.

Lemma escape_right hi lo r : let n := (N_of_ascii hi * 256 + N_of_ascii lo)%N in
  exists s, parse_str_body (String "\" (String "u" (hex_encode (String hi (String lo "")) ++ String """" r))) = Some (s, r) /\
    utf8_value s = Some (if ((55296 <=? n) && (n <? 57344))%N then 65533%N else n).
Proof.
  intros n. assert (n < 65536)%N as Hn.
  { pose proof (N_ascii_bounded hi). pose proof (N_ascii_bounded lo). unfold n. lia. }
  destruct hi as [a0 a1 a2 a3 a4 a5 a6 a7], lo as [b0 b1 b2 b3 b4 b5 b6 b7]. cbn [hex_encode append].
  assert (hex4 (hex_digit a4 a5 a6 a7) (hex_digit a0 a1 a2 a3) (hex_digit b4 b5 b6 b7) (hex_digit b0 b1 b2 b3) = Some n) as E.
  { unfold hex4. rewrite !hex_val_digit. f_equal. unfold n, nib. cbn [N_of_ascii N_of_digits].
    assert (forall b : bool, (if b then 2 else 0) = 2 * (if b then 1 else 0) /\ (if b then 4 else 0) = 4 * (if b then 1 else 0) /\ (if b then 8 else 0) = 8 * (if b then 1 else 0))%N as T by (by intros []).
    repeat match goal with |- context [if ?b then 2%N else 0%N] => rewrite (proj1 (T b)) | |- context [if ?b then 4%N else 0%N] => rewrite (proj1 (proj2 (T b))) | |- context [if ?b then 8%N else 0%N] => rewrite (proj2 (proj2 (T b))) end. clear T.
    repeat match goal with |- context [if ?b then 1%N else 0%N] => generalize (if b then 1%N else 0%N); intros end. lia. }
  cbn [parse_str_body]. rewrite E. eexists. split; [reflexivity|]. fold (is_surrogate n).
  assert (forall t : string, t ++ "" = t) as Ea by (induction t as [|ch t IH]; [done|cbn; by rewrite IH]). rewrite Ea.
  destruct (is_surrogate n); apply utf8_right; [lia|done].
Qed.
