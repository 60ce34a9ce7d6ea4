(** Facts about PEM text. *)
From Verif Require Import Bytes Base64 Base64Facts Pem.
Open Scope string_scope.

(** All characters satisfy [f]. *)
Fixpoint sall (f : ascii -> bool) (s : string) : bool :=
  match s with EmptyString => true | String c r => f c && sall f r end.

Definition isnt (c d : ascii) : bool := negb (Ascii.eqb d c).

Lemma sall_app f a b : sall f (a ++ b) = sall f a && sall f b.
Proof. induction a as [|c a IH]; [done|]. cbn. by rewrite IH, andb_assoc. Qed.

Lemma sall_impl (f g : ascii -> bool) s : (forall c, f c = true -> g c = true) -> sall f s = true -> sall g s = true.
Proof.
  intros H. induction s as [|c s IH]; [done|]. cbn. intros [H1 H2]%andb_true_iff.
  by rewrite (H _ H1), (IH H2).
Qed.

Lemma app_assoc_s (a b c : string) : (a ++ b) ++ c = a ++ (b ++ c).
Proof. induction a as [|x a IH]; [done|]. cbn. by rewrite IH. Qed.

Lemma app_nil_s (a : string) : a ++ "" = a.
Proof. induction a as [|x a IH]; [done|]. cbn. by rewrite IH. Qed.

Lemma app_inj_l (a b c : string) : a ++ b = a ++ c -> b = c.
Proof. induction a as [|x a IH]; [done|]. cbn. intros [= H]. auto. Qed.

Lemma cons_inj (x y : ascii) (a b : string) : String x a = String y b -> x = y /\ a = b.
Proof. by intros [= -> ->]. Qed.

(** Two ways to cut one string in two. *)
Lemma app_split (a b c d : string) : a ++ b = c ++ d ->
  (exists e, a = c ++ e /\ d = e ++ b) \/ (exists x e, c = a ++ String x e /\ b = String x e ++ d).
Proof.
  revert c. induction a as [|x a IH]; intros c H.
  - destruct c as [|y c]; [left; exists ""; done|]. right. exists y, c. split; [done|]. exact H.
  - destruct c as [|y c].
    + left. exists (String x a). split; [done|]. by symmetry.
    + cbn in H. injection H as -> H. destruct (IH c H) as [(e & -> & ->) | (z & e & -> & ->)].
      * left. by exists e.
      * right. by exists z, e.
Qed.

Lemma strip_prefix_some p s r : strip_prefix p s = Some r <-> s = p ++ r.
Proof.
  revert s. induction p as [|c p IH]; intros s; cbn.
  - split; [by intros [= ->] | by intros ->].
  - destruct s as [|d s]; [split; discriminate|].
    destruct (Ascii.eqb_spec c d) as [->|N].
    + rewrite IH. split; [by intros -> | by intros [=]].
    + split; [discriminate|]. intros [= -> _]. by destruct N.
Qed.

Lemma strip_prefix_app p r : strip_prefix p (p ++ r) = Some r.
Proof. by apply strip_prefix_some. Qed.

Lemma cut_some sep s a r : cut sep s = Some (a, r) -> s = a ++ sep ++ r.
Proof.
  revert a. induction s as [|c s IH]; intros a; cbn.
  - destruct (strip_prefix sep "") eqn:E; [|discriminate].
    intros [= <- <-]. by apply strip_prefix_some in E.
  - destruct (strip_prefix sep (String c s)) eqn:E.
    + intros [= <- <-]. by apply strip_prefix_some in E.
    + destruct (cut sep s) as [[a' b]|]; [|discriminate]. intros [= <- <-]. cbn. by rewrite (IH a' eq_refl).
Qed.

Lemma strip_prefix_more p s r u : strip_prefix p s = Some r -> strip_prefix p (s ++ u) = Some (r ++ u).
Proof. rewrite !strip_prefix_some. intros ->. by rewrite app_assoc_s. Qed.

(** A character alone as separator. *)
Lemma cut_char c a r : sall (isnt c) a = true -> cut (String c "") (a ++ String c r) = Some (a, r).
Proof.
  induction a as [|d a IH]; cbn; intros H.
  - by rewrite Ascii.eqb_refl.
  - apply andb_true_iff in H as [H1 H2]. unfold isnt in H1.
    destruct (Ascii.eqb_spec c d) as [->|N]; [by rewrite Ascii.eqb_refl in H1|]. by rewrite (IH H2).
Qed.

Lemma cut_char_none c a : sall (isnt c) a = true -> cut (String c "") a = None.
Proof.
  induction a as [|d a IH]; cbn; intros H; [done|].
  apply andb_true_iff in H as [H1 H2]. unfold isnt in H1.
  destruct (Ascii.eqb_spec c d) as [->|N]; [by rewrite Ascii.eqb_refl in H1|]. by rewrite (IH H2).
Qed.

(** No occurrence of the separator's first character. *)
Lemma cut_none c sep a : sall (isnt c) a = true -> cut (String c sep) a = None.
Proof.
  induction a as [|d a IH]; cbn; intros H; [done|].
  apply andb_true_iff in H as [H1 H2]. unfold isnt in H1.
  destruct (Ascii.eqb_spec c d) as [->|N]; [by rewrite Ascii.eqb_refl in H1|]. by rewrite (IH H2).
Qed.

(** A separator of which the second character does not occur before it. *)
Lemma cut_second c d x a r : c <> d -> sall (isnt d) a = true ->
  cut (String c (String d x)) (a ++ String c (String d x) ++ r) = Some (a, r).
Proof.
  intros N. induction a as [|e a IH]; intros H.
  - change ("" ++ String c (String d x) ++ r) with (String c (String d x) ++ r).
    assert (E := strip_prefix_app (String c (String d x)) r). cbn in E |- *. by rewrite E.
  - cbn in H. apply andb_true_iff in H as [H1 H2].
    assert (E : strip_prefix (String c (String d x)) (String e a ++ String c (String d x) ++ r) = None).
    { cbn. destruct (Ascii.eqb_spec c e) as [->|]; [|done].
      destruct a as [|f a]; cbn.
      - destruct (Ascii.eqb_spec d e) as [->|]; [done|done].
      - cbn in H2. apply andb_true_iff in H2 as [H2 _]. unfold isnt in H2.
        destruct (Ascii.eqb_spec d f) as [->|]; [by rewrite Ascii.eqb_refl in H2 | done]. }
    change (cut (String c (String d x)) (String e a ++ String c (String d x) ++ r))
      with (match strip_prefix (String c (String d x)) (String e a ++ String c (String d x) ++ r) with
            | Some r => Some ("", r)
            | None => match cut (String c (String d x)) (a ++ String c (String d x) ++ r) with
                      | Some (a, b) => Some (String e a, b) | None => None end end).
    by rewrite E, (IH H2).
Qed.

Lemma length_app_s (a b : string) : String.length (a ++ b) = String.length a + String.length b.
Proof. induction a as [|x a IH]; [done|]. cbn. by rewrite IH. Qed.

(** What is found in a beginning is found in the whole. *)
Lemma cut_more sep s a r u : sep <> "" -> cut sep s = Some (a, r) -> cut sep (s ++ u) = Some (a, r ++ u).
Proof.
  intros N. revert a. induction s as [|c s IH]; intros a; cbn [cut].
  - destruct sep; [done|]. discriminate.
  - destruct (strip_prefix sep (String c s)) as [t|] eqn:E.
    + intros [= <- <-]. apply (strip_prefix_more _ _ _ u) in E. cbn in E. cbn. by rewrite E.
    + destruct (cut sep s) as [[a' b]|] eqn:E2; [|discriminate]. intros [= <- <-].
      cbn [String.append cut]. rewrite (IH a' eq_refl).
      destruct (strip_prefix sep (String c (s ++ u))) as [t|] eqn:E3; [|done]. exfalso.
      apply cut_some in E2. subst s.
      apply strip_prefix_some in E3.
      assert (H : String c (a' ++ sep ++ b) ++ u = sep ++ t) by exact E3.
      destruct (app_split _ _ _ _ H) as [(e & H1 & _) | (x & e & H1 & _)].
      * rewrite H1, strip_prefix_app in E. discriminate.
      * assert (L := f_equal String.length H1). cbn in L.
        rewrite !length_app_s in L. cbn in L. lia.
Qed.

Lemma strip_suffix_app p a : strip_suffix p (a ++ p) = Some a.
Proof.
  induction a as [|c a IH].
  - cbn. destruct p; cbn; [done|]. by rewrite Ascii.eqb_refl, String.eqb_refl.
  - cbn [String.append strip_suffix]. destruct (String.eqb_spec p (String c (a ++ p))) as [E|_]; [|by rewrite IH].
    apply (f_equal String.length) in E. cbn in E. rewrite length_app_s in E. lia.
Qed.

Lemma trim_right_last a c : Ascii.eqb c " " || Ascii.eqb c "009" = false ->
  trim_right (a ++ String c "") = a ++ String c "".
Proof.
  intros H. induction a as [|d a IH]; cbn; [by rewrite H|]. rewrite IH. by destruct a.
Qed.

Lemma drop_cr_last a c : Ascii.eqb c "013" = false -> drop_cr (a ++ String c "") = a ++ String c "".
Proof.
  intros H. induction a as [|d a IH]; cbn; [by rewrite H|]. rewrite IH. by destruct a.
Qed.

(** A line that ends in a dash. *)
Lemma get_line_dash a r : sall (isnt "010") a = true -> get_line ((a ++ dashes) ++ nl ++ r) = (a ++ dashes, r).
Proof.
  intros H. unfold get_line. change (nl ++ r) with (String "010" r). unfold nl. rewrite cut_char.
  2: { rewrite sall_app, H. done. }
  f_equal. change dashes with ("----" ++ "-").
  rewrite <- app_assoc_s, drop_cr_last, trim_right_last by done. done.
Qed.

(** No dash is followed by a B. *)
Fixpoint no_pair (s : string) : bool :=
  match s with
  | String c (String d _ as r) => negb (Ascii.eqb c "-" && Ascii.eqb d "B") && no_pair r
  | _ => true
  end.

Lemma no_pair_tail c s : no_pair (String c s) = true -> no_pair s = true.
Proof. destruct s as [|d s]; [done|]. intros [_ H]%andb_true_iff. exact H. Qed.

Lemma no_pair_suffix a s : no_pair (a ++ s) = true -> no_pair s = true.
Proof. induction a as [|c a IH]; [done|]. intros H. apply IH. exact (no_pair_tail c _ H). Qed.

Lemma no_pair_prefix s u : no_pair (s ++ u) = true -> no_pair s = true.
Proof.
  induction s as [|c s IH]; [done|]. destruct s as [|d s]; [done|].
  intros H. assert (H0 := no_pair_tail _ _ H). apply IH in H0.
  change (negb (Ascii.eqb c "-" && Ascii.eqb d "B") && no_pair (String d (s ++ u)) = true) in H.
  apply andb_true_iff in H as [H _]. cbn [no_pair]. by rewrite H.
Qed.

Lemma no_pair_skip a s : sall (isnt "-") a = true -> no_pair (a ++ s) = no_pair s.
Proof.
  induction a as [|c a IH]; [done|]. cbn [sall]. intros [H1 H2]%andb_true_iff.
  rewrite <- (IH H2). unfold isnt in H1. cbn [String.append].
  destruct (a ++ s) as [|d r]; [done|]. cbn [no_pair].
  destruct (Ascii.eqb c "-"); [discriminate|]. done.
Qed.

Lemma no_start s : no_pair s = true -> forall a r, s <> a ++ pem_start ++ r.
Proof. intros H a r ->. apply no_pair_suffix in H. discriminate. Qed.

Lemma pem_loop_none n s : no_pair s = true -> pem_loop n s = None.
Proof.
  intros H. destruct n as [|n]; [done|]. cbn [pem_loop].
  destruct (strip_prefix pem_start s) as [r|] eqn:E.
  { apply strip_prefix_some in E. by destruct (no_start _ H "" r). }
  destruct (cut (nl ++ pem_start) s) as [[a r]|] eqn:E2; [|done].
  apply cut_some in E2. destruct (no_start _ H (a ++ nl) r). rewrite E2, !app_assoc_s. done.
Qed.

(** ** The base64 text *)
(** Characters of base64 text. *)
Definition body_ok (c : ascii) : bool := bool_decide (is_Some (b64_val c)) || Ascii.eqb c "=".

Lemma body_char (x : six) : body_ok (b64_char x) = true.
Proof. unfold body_ok. by rewrite (proj1 (b64_val_char x)). Qed.

Lemma b64_chars s : sall body_ok (b64_encode s) = true.
Proof.
  assert (H : forall n s, String.length s <= n -> sall body_ok (b64_encode s) = true).
  { clear. intros n. induction n as [|n IH]; intros s Hs; (destruct s as [|[a0 a1 a2 a3 a4 a5 a6 a7] s]; [done|]); cbn in Hs; [lia|].
    destruct s as [|[b0 b1 b2 b3 b4 b5 b6 b7] s].
    { cbn [b64_encode sall]. by rewrite !body_char. }
    destruct s as [|[c0 c1 c2 c3 c4 c5 c6 c7] s].
    { cbn [b64_encode sall]. by rewrite !body_char. }
    cbn [b64_encode sall]. rewrite (IH s) by (cbn in Hs; lia).
    by rewrite !body_char. }
  exact (H _ s (le_n _)).
Qed.

Definition line_ok (c : ascii) : bool := body_ok c || Ascii.eqb c "010".

Lemma break_shape s k : 1 <= k <= 64 -> sall body_ok s = true ->
  (s = "" /\ k = 64 /\ break_lines k s = "") \/
  (exists a, break_lines k s = a ++ nl /\ sall line_ok a = true /\ strip_crlf a = strip_crlf s).
Proof.
  revert k. induction s as [|c s IH]; intros k Hk H.
  - cbn. destruct (Nat.eqb_spec k 64) as [->|N]; [by left|]. right. exists "". done.
  - right. cbn [sall] in H. apply andb_true_iff in H as [H1 H2].
    assert (Hc : line_ok c = true) by (unfold line_ok; by rewrite H1).
    destruct k as [|[|k]]; [lia| |].
    + cbn [break_lines]. destruct (IH 64 ltac:(lia) H2) as [(-> & _ & ->) | (a & -> & Ha & Hs)].
      * exists (String c ""). cbn. by rewrite Hc.
      * exists (String c (nl ++ a)). split; [cbn; done|]. split; [cbn; by rewrite Hc, Ha|].
        cbn. by rewrite Hs.
    + cbn [break_lines]. change (Nat.pred (S (S k))) with (S k).
      destruct (IH (S k) ltac:(lia) H2) as [(_ & Ek & _) | (a & -> & Ha & Hs)]; [lia|].
      exists (String c a). split; [done|]. split; [cbn; by rewrite Hc, Ha|]. cbn. by rewrite Hs.
Qed.

Lemma line_not_dash c : line_ok c = true -> isnt "-" c = true.
Proof. destruct c as [[] [] [] [] [] [] [] []]; done. Qed.
Lemma line_not_colon c : line_ok c = true -> isnt ":" c = true.
Proof. destruct c as [[] [] [] [] [] [] [] []]; done. Qed.
Lemma line_not_blank c : line_ok c = true -> Ascii.eqb c " " || Ascii.eqb c "009" = false.
Proof. destruct c as [[] [] [] [] [] [] [] []]; done. Qed.

Lemma strip_blanks_id a : sall line_ok a = true -> strip_blanks a = a.
Proof.
  induction a as [|c a IH]; [done|]. cbn. intros [H1 H2]%andb_true_iff.
  by rewrite (line_not_blank c H1), (IH H2).
Qed.

(** The text between the BEGIN and the END line. *)
Lemma body_shape bs : let t := break_lines 64 (b64_encode bs) in
  (t = "" /\ bs = "") \/ (exists a, t = a ++ nl /\ sall line_ok a = true /\ b64_decode (strip_blanks a) = Some bs).
Proof.
  cbn zeta. destruct (break_shape (b64_encode bs) 64 ltac:(lia) (b64_chars bs)) as [(E & _ & ->) | (a & -> & Ha & Hs)].
  - left. split; [done|]. assert (H := b64_roundtrip bs). rewrite E in H. by injection H.
  - right. exists a. split; [done|]. split; [done|].
    rewrite (strip_blanks_id a Ha). unfold b64_decode. rewrite Hs. exact (b64_roundtrip bs).
Qed.

(** A block type: no newline, no colon, no dash. *)
Definition type_ok (c : ascii) : bool := isnt "010" c && isnt ":" c && isnt "-" c.

Lemma type_isnt d ty : isnt "010" d && isnt ":" d && isnt "-" d = false -> sall type_ok ty = true -> sall (isnt d) ty = true.
Proof.
  intros Hd. apply sall_impl. intros c. unfold type_ok, isnt in *.
  destruct (Ascii.eqb_spec c d) as [->|]; [|done]. rewrite Hd. discriminate.
Qed.

Section text.
Context (ty bs : string) (Hty : sall type_ok ty = true).
Local Notation body := (break_lines 64 (b64_encode bs)).
Local Notation tail := (body ++ pem_end ++ ty ++ dashes ++ nl).

Lemma encode_eq : pem_encode ty bs = pem_start ++ (ty ++ dashes) ++ nl ++ tail.
Proof. unfold pem_encode. by rewrite !app_assoc_s. Qed.

Lemma ty_nl : sall (isnt "010") ty = true. Proof using Hty. by apply type_isnt. Qed.
Lemma ty_colon : sall (isnt ":") ty = true. Proof using Hty. by apply type_isnt. Qed.
Lemma ty_dash : sall (isnt "-") ty = true. Proof using Hty. by apply type_isnt. Qed.

Lemma tail_colon : sall (isnt ":") tail = true.
Proof using Hty.
  rewrite !sall_app, ty_colon. cbn [sall]. rewrite andb_true_r.
  destruct (body_shape bs) as [[-> _] | (a & -> & Ha & _)]; [done|].
  rewrite sall_app, (sall_impl _ _ a line_not_colon Ha). done.
Qed.

Lemma end_pair r : no_pair (pem_end ++ r) = no_pair r.
Proof using. destruct r; done. Qed.

Lemma tail_pair : no_pair tail = true.
Proof using Hty.
  assert (E : no_pair (pem_end ++ ty ++ dashes ++ nl) = true).
  { rewrite end_pair, no_pair_skip by exact ty_dash. done. }
  destruct (body_shape bs) as [[-> _] | (a & -> & Ha & _)]; [exact E|].
  rewrite app_assoc_s, no_pair_skip by exact (sall_impl _ _ a line_not_dash Ha).
  rewrite (no_pair_skip nl) by done. exact E.
Qed.

(** Where the END line is found. *)
Lemma split_tail r : exists a, split_end false (tail ++ r) = Some (a, ty ++ dashes ++ nl ++ r) /\
  b64_decode (strip_blanks a) = Some bs.
Proof.
  destruct (body_shape bs) as [[-> ->] | (a & -> & Ha & Hd)].
  - exists "". split; [|done]. unfold split_end. rewrite !app_assoc_s.
    change ("" ++ (pem_end ++ (ty ++ (dashes ++ (nl ++ r))))) with (pem_end ++ (ty ++ (dashes ++ (nl ++ r)))).
    by rewrite strip_prefix_app.
  - exists a. split; [|done]. unfold split_end.
    assert (E : strip_prefix pem_end (((a ++ nl) ++ pem_end ++ ty ++ dashes ++ nl) ++ r) = None).
    { rewrite !app_assoc_s. destruct a as [|c a]; [done|]. cbn [sall] in Ha. apply andb_true_iff in Ha as [Hc _].
      apply line_not_dash in Hc. unfold isnt in Hc. cbn [String.append strip_prefix pem_end].
      destruct (Ascii.eqb_spec "-" c) as [<-|]; [discriminate Hc | reflexivity]. }
    rewrite E. rewrite !app_assoc_s.
    assert (E2 := cut_second "010" "-" "----END " a (ty ++ dashes ++ nl ++ r) ltac:(done) (sall_impl _ _ a line_not_dash Ha)).
    exact E2.
Qed.

Lemma line_colon s line next : get_line s = (line, next) ->
  (forall a r, cut nl s = Some (a, r) -> sall (isnt ":") a = true) -> (cut nl s = None -> sall (isnt ":") s = true) ->
  cut ":" line = None.
Proof using.
  intros E H1 H2. apply cut_char_none.
  assert (D : forall a, sall (isnt ":") a = true -> sall (isnt ":") (drop_cr a) = true).
  { induction a as [|c a IH]; [done|]. cbn. intros [G1 G2]%andb_true_iff.
    destruct a; [by destruct (Ascii.eqb c "013"); cbn; rewrite ?G1|]. cbn [sall]. rewrite G1. exact (IH G2). }
  assert (T : forall a, sall (isnt ":") a = true -> sall (isnt ":") (trim_right a) = true).
  { induction a as [|c a IH]; [done|]. cbn [sall trim_right]. intros [G1 G2]%andb_true_iff.
    specialize (IH G2). destruct (trim_right a) eqn:Et; [by destruct (_ || _); cbn; rewrite ?G1|].
    cbn [sall]. rewrite G1. exact IH. }
  unfold get_line in E. destruct (cut nl s) as [[a r]|] eqn:E2; injection E as <- _; eauto.
Qed.

Lemma skip_none n s : sall (isnt ":") s = true -> skip_headers (S n) s false = if is_empty s then None else Some (false, s).
Proof using.
  intros H. cbn [skip_headers]. destruct (is_empty s); [done|].
  destruct (get_line s) as [line next] eqn:E.
  rewrite (line_colon s line next E); [done| |done].
  intros a r E2. apply cut_some in E2. rewrite E2, sall_app in H. by apply andb_true_iff in H as [H _].
Qed.

Lemma skip_more n s a b r : sall (isnt ":") s = true -> cut nl s = Some (a, b) -> skip_headers (S n) (s ++ r) false = Some (false, s ++ r).
Proof using.
  intros H E. assert (E2 := cut_more nl s a b r ltac:(done) E). cbn [skip_headers].
  destruct (is_empty (s ++ r)) eqn:Es.
  { apply cut_some in E. subst s. destruct a; discriminate. }
  destruct (get_line (s ++ r)) as [line next] eqn:El.
  rewrite (line_colon _ line next El); [done| |].
  - intros a' r' E3. rewrite E2 in E3. injection E3 as <- _.
    apply cut_some in E. rewrite E, sall_app in H. by apply andb_true_iff in H as [H _].
  - rewrite E2. done.
Qed.

Lemma tail_line : exists a b, cut nl tail = Some (a, b).
Proof.
  assert (H : forall s, exists a b, cut nl (s ++ nl) = Some (a, b)).
  { induction s as [|c s (a & b & IH)]; [by exists "", ""|]. cbn [String.append cut].
    destruct (strip_prefix nl (String c (s ++ nl))) as [t|]; [by exists "", t|]. rewrite IH. by exists (String c a), b. }
  destruct (H (body ++ pem_end ++ ty ++ dashes)) as (a & b & E). exists a, b.
  rewrite <- E. by rewrite !app_assoc_s.
Qed.

Lemma try_encode r : try_block ((ty ++ dashes) ++ nl ++ tail ++ r) = Found (mkblock ty false bs) r.
Proof using Hty.
  unfold try_block. rewrite get_line_dash by exact ty_nl.
  rewrite strip_suffix_app.
  destruct tail_line as (a & b & E). rewrite (skip_more _ _ a b r tail_colon E).
  destruct (split_tail r) as (t & -> & Hd).
  rewrite <- (app_assoc_s ty dashes), strip_prefix_app.
  change (nl ++ r) with (String "010" r) at 1.
  assert (G : get_line (String "010" r) = ("", r)) by done.
  rewrite G. cbn [fst is_empty negb]. rewrite Hd.
  rewrite get_line_dash by exact ty_nl. done.
Qed.

Lemma encode_more r : pem_encode ty bs ++ r = pem_start ++ (ty ++ dashes) ++ nl ++ tail ++ r.
Proof. rewrite encode_eq. by rewrite (app_assoc_s pem_start), (app_assoc_s _ _ r), (app_assoc_s nl). Qed.

(** Encoded text followed by anything is decoded, and the rest is what follows. *)
Lemma decode_encode r : pem_decode (pem_encode ty bs ++ r) = Some (mkblock ty false bs, r).
Proof using Hty.
  unfold pem_decode. cbn [pem_loop]. rewrite encode_more, strip_prefix_app. by rewrite try_encode.
Qed.

(** The same behind a comment line without dashes. *)
Lemma decode_comment c r : sall (isnt "-") c = true ->
  pem_decode ((c ++ nl) ++ pem_encode ty bs ++ r) = Some (mkblock ty false bs, r).
Proof using Hty.
  intros Hc. unfold pem_decode. cbn [pem_loop]. rewrite encode_more, app_assoc_s.
  set (t := (ty ++ dashes) ++ nl ++ tail ++ r).
  assert (E1 : strip_prefix pem_start (c ++ nl ++ pem_start ++ t) = None).
  { destruct c as [|d c]; [done|]. cbn [sall] in Hc. apply andb_true_iff in Hc as [Hd _]. unfold isnt in Hd.
    cbn [String.append strip_prefix pem_start]. destruct (Ascii.eqb_spec "-" d) as [<-|]; [discriminate Hd|reflexivity]. }
  assert (E2 : cut (nl ++ pem_start) (c ++ nl ++ pem_start ++ t) = Some (c, t)).
  { exact (cut_second "010" "-" "----BEGIN " c t ltac:(done) Hc). }
  rewrite E1, E2. unfold t. by rewrite try_encode.
Qed.

(** A beginning of encoded text decodes to the same block, or to nothing. *)
Lemma decode_prefix t u : t ++ u = pem_encode ty bs ->
  pem_decode t = None \/ pem_decode t = Some (mkblock ty false bs, "").
Proof using Hty.
  rewrite encode_eq. intros H. unfold pem_decode. set (n := len t). clearbody n. cbn [pem_loop].
  destruct (app_split _ _ _ _ H) as [(t1 & -> & H1) | (x & e & H1 & _)].
  2: { (* within the first marker *)
    left. assert (E : strip_prefix pem_start t = None).
    { destruct (strip_prefix pem_start t) as [r|] eqn:E; [|done]. apply strip_prefix_some in E. subst t.
      apply (f_equal String.length) in H1. rewrite !length_app_s in H1. cbn in H1. lia. }
    rewrite E. assert (N : sall (isnt "010") t = true).
    { assert (N : sall (isnt "010") (t ++ String x e) = true) by (rewrite <- H1; done).
      rewrite sall_app in N. by apply andb_true_iff in N as [N _]. }
    change (nl ++ pem_start) with (String "010" pem_start). by rewrite (cut_none _ _ t N). }
  rewrite strip_prefix_app. unfold try_block.
  symmetry in H1. destruct (app_split _ _ _ _ H1) as [(t2 & -> & H2) | (x & e & H2 & _)].
  2: { (* within the first line *)
    left. assert (N : sall (isnt "010") t1 = true).
    { assert (N : sall (isnt "010") (t1 ++ String x e) = true) by (rewrite <- H2, sall_app, ty_nl; done).
      rewrite sall_app in N. by apply andb_true_iff in N as [N _]. }
    unfold get_line. unfold nl. rewrite (cut_char_none _ t1 N).
    destruct (strip_suffix dashes (trim_right t1)); cbn [skip_headers len String.length is_empty]; [done|].
    by apply pem_loop_none. }
  destruct t2 as [|c t2].
  { left. rewrite app_nil_s. unfold get_line. unfold nl. rewrite cut_char_none by (rewrite sall_app, ty_nl; done).
    destruct (strip_suffix _ _); cbn [skip_headers len String.length is_empty]; [done|]. by apply pem_loop_none. }
  assert (H3 : String "010" tail = String c (t2 ++ u)) by exact H2. clear H2. apply cons_inj in H3 as [<- H2].
  change (String "010" t2) with (nl ++ t2). rewrite get_line_dash by exact ty_nl. rewrite strip_suffix_app.
  assert (Hc := tail_colon). rewrite H2, sall_app in Hc. apply andb_true_iff in Hc as [Hc _].
  rewrite (skip_none _ _ Hc). destruct (is_empty t2); [by left|].
  assert (Hp := tail_pair). rewrite H2 in Hp. apply no_pair_prefix in Hp.
  destruct (split_end false t2) as [[b tr]|] eqn:Es; [|left; by apply pem_loop_none].
  destruct (strip_prefix (ty ++ dashes) tr) as [eol|] eqn:Ep; [|left; by apply pem_loop_none].
  (* the END line of the whole text *)
  destruct (split_tail "") as (a & Ea & Hd). rewrite !app_nil_s in Ea.
  assert (Em : split_end false (t2 ++ u) = Some (b, tr ++ u)).
  { unfold split_end in Es |- *. destruct (strip_prefix pem_end t2) as [r|] eqn:E1.
    - injection Es as <- <-. by rewrite (strip_prefix_more _ _ _ u E1).
    - assert (Ec := cut_more (nl ++ pem_end) t2 b tr u ltac:(discriminate) Es).
      destruct (strip_prefix pem_end (t2 ++ u)) as [r|] eqn:E2; [|exact Ec]. exfalso.
      apply strip_prefix_some in E2. apply cut_some in Es.
      destruct (app_split _ _ _ _ E2) as [(e & G & _) | (x & e & G & _)].
      + rewrite G, strip_prefix_app in E1. discriminate.
      + apply (f_equal String.length) in G. rewrite Es in G. rewrite !length_app_s in G. cbn in G. lia. }
  rewrite <- H2, Ea in Em. injection Em as <- Em.
  apply strip_prefix_some in Ep. subst tr.
  rewrite !app_assoc_s in Em. apply app_inj_l in Em. apply (app_inj_l dashes nl (eol ++ u)) in Em.
  assert (Hl : eol = "" \/ eol = nl).
  { destruct eol as [|c [|d eol]]; [by left| |]; cbn in Em.
    - right. by injection Em as <- _.
    - by injection Em. }
  destruct Hl as [-> | ->].
  - cbn [get_line]. change (fst (get_line "")) with "". cbn [is_empty negb]. rewrite Hd. right.
    f_equal. f_equal. rewrite app_nil_s. unfold get_line, nl.
    rewrite cut_char_none by (rewrite sall_app, ty_nl; done). done.
  - change (fst (get_line nl)) with "". cbn [is_empty negb]. rewrite Hd. right.
    f_equal. f_equal. rewrite <- (app_nil_s nl), get_line_dash by exact ty_nl. done.
Qed.
End text.
