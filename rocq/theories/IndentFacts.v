(** json.Unmarshal inverts json.MarshalIndent. *)
From Verif Require Import Bytes Hex Json CodecFacts JsonFacts CryptoIO.
From Coq Require Import Lia.
Open Scope string_scope.

Fixpoint all_ws (s : string) : bool :=
  match s with
  | EmptyString => true
  | String c r => is_ws c && all_ws r
  end.

(** A line break followed by white space. *)
Definition line_break (nl : string) : Prop := exists w, nl = String "010" w /\ all_ws w = true.

Lemma all_ws_app a b : all_ws (a ++ b) = all_ws a && all_ws b.
Proof. induction a as [|c a IH]; [done|]. cbn. rewrite IH. by destruct (is_ws c), (all_ws a). Qed.

Lemma line_break_ws nl : line_break nl -> all_ws nl = true.
Proof. by intros (w & -> & H). Qed.

Lemma line_break_app nl w : line_break nl -> all_ws w = true -> line_break (nl ++ w).
Proof. intros (u & -> & H) Hw. exists (u ++ w). split; [done|]. by rewrite all_ws_app, H. Qed.

Lemma skip_ws_app w r : all_ws w = true -> skip_ws (w ++ r) = skip_ws r.
Proof.
  induction w as [|c w IH]; intros H; [done|]. cbn in H. apply andb_prop in H as [Hc Hw].
  change (String c w ++ r) with (String c (w ++ r)). cbn [skip_ws]. rewrite Hc. auto.
Qed.

Lemma parse_val_ws n w r : all_ws w = true -> parse_val n (w ++ r) = parse_val n r.
Proof. intros H. destruct n as [|n]; [done|]. cbn [parse_val]. by rewrite skip_ws_app. Qed.

Lemma parse_elems_ws n w r : all_ws w = true -> parse_elems n (w ++ r) = parse_elems n r.
Proof. intros H. destruct n as [|n]; [done|]. cbn [parse_elems]. by rewrite parse_val_ws. Qed.

Lemma parse_members_ws n w r : all_ws w = true -> parse_members n (w ++ r) = parse_members n r.
Proof. intros H. destruct n as [|n]; [done|]. cbn [parse_members]. by rewrite skip_ws_app. Qed.

Section indent.
Context (ind : string) (Hind : all_ws ind = true).

Definition ind_elems (nl : string) : list json -> string := fix go l :=
  match l with
  | [] => ""
  | [x] => nl ++ indent_json ind nl x
  | x :: r => nl ++ indent_json ind nl x ++ "," ++ go r
  end.

Definition ind_members (nl : string) : list (string * json) -> string := fix go l :=
  match l with
  | [] => ""
  | [(k, x)] => nl ++ print_str k ++ ": " ++ indent_json ind nl x
  | (k, x) :: r => nl ++ print_str k ++ ": " ++ indent_json ind nl x ++ "," ++ go r
  end.

Lemma indent_arr nl x l : indent_json ind nl (JArr (x :: l)) = "[" ++ ind_elems (nl ++ ind) (x :: l) ++ nl ++ "]".
Proof. reflexivity. Qed.
Lemma indent_obj nl x l : indent_json ind nl (JObj (x :: l)) = "{" ++ ind_members (nl ++ ind) (x :: l) ++ nl ++ "}".
Proof. reflexivity. Qed.

Lemma print_le_indent v : forall nl, len (print_json v) <= len (indent_json ind nl v).
Proof.
  induction v as [|b|s|s|l IH|l IH] using json_rect'; intros nl; try done.
  - destruct l as [|x l]; [done|]. rewrite print_arr, indent_arr, !len_app.
    enough (len (print_elems (x :: l)) <= len (ind_elems (nl ++ ind) (x :: l))) by lia.
    generalize (nl ++ ind) as w. clear nl. intros w. revert x IH. induction l as [|y l IHl]; intros x IH.
    + inversion IH as [|? ? Hx _]; subst. cbn [print_elems ind_elems]. rewrite len_app. specialize (Hx w). lia.
    + inversion IH as [|? ? Hx Hr]; subst. specialize (IHl y Hr). specialize (Hx w).
      change (print_elems (x :: y :: l)) with (print_json x ++ "," ++ print_elems (y :: l)).
      change (ind_elems w (x :: y :: l)) with (w ++ indent_json ind w x ++ "," ++ ind_elems w (y :: l)).
      rewrite !len_app. lia.
  - destruct l as [|[k x] l]; [done|]. rewrite print_obj, indent_obj, !len_app.
    enough (len (print_members ((k, x) :: l)) <= len (ind_members (nl ++ ind) ((k, x) :: l))) by lia.
    generalize (nl ++ ind) as w. clear nl. intros w. revert k x IH. induction l as [|[k' y] l IHl]; intros k x IH.
    + inversion IH as [|? ? Hx _]; subst. cbn [print_members ind_members]. rewrite !len_app.
      change (len ":") with 1. change (len ": ") with 2. specialize (Hx w). cbn [snd] in Hx. lia.
    + inversion IH as [|? ? Hx Hr]; subst. specialize (IHl k' y Hr). specialize (Hx w). cbn [snd] in Hx.
      change (print_members ((k, x) :: (k', y) :: l))
        with (print_str k ++ ":" ++ print_json x ++ "," ++ print_members ((k', y) :: l)).
      change (ind_members w ((k, x) :: (k', y) :: l))
        with (w ++ print_str k ++ ": " ++ indent_json ind w x ++ "," ++ ind_members w ((k', y) :: l)).
      rewrite !len_app. change (len ":") with 1. change (len ": ") with 2. lia.
Qed.

Lemma val_end_nl nl r : line_break nl -> val_end (nl ++ r) = true.
Proof. by intros (w & -> & _). Qed.

Lemma val_head_indent v nl : wf_json v -> val_head (indent_json ind nl v) = true.
Proof.
  intros W. destruct v as [| | | |[|x l]|[|x l]]; try by apply val_head_print. all: done.
Qed.

Lemma parse_indent v : wf_json v -> forall nl n r, line_break nl -> fuel v <= n -> val_end r = true ->
  parse_val n (indent_json ind nl v ++ r) = Some (v, r).
Proof.
  induction v as [|b|s|s|l IH|l IH] using json_rect'; intros W nl n r Hnl Hn Hr;
    try (apply (parse_print _ W); done).
  - destruct l as [|x l]; [apply (parse_print (JArr []) W); done|].
    destruct n as [|n]; [cbn in Hn; lia|].
    inversion W as [| | | |l' Wl|]; subst.
    rewrite indent_arr, !app_assoc_s.
    assert (line_break (nl ++ ind)) as Hw by by apply line_break_app.
    revert Hw. generalize (nl ++ ind) as w. intros w Hw. pose proof (line_break_ws w Hw) as Hw'.
    assert (forall r, parse_elems n (ind_elems w (x :: l) ++ nl ++ "]" ++ r) = Some (x :: l, r)) as He.
    { change (fuel (JArr (x :: l))) with (1 + fuel_elems (x :: l)) in Hn.
      clear W Hr r. assert (fuel_elems (x :: l) <= n) as Hn' by lia. clear Hn. revert x n IH Wl Hn'.
      induction l as [|y l IHl]; intros x n IH Wl Hn r.
      - inversion IH as [|? ? Hx _]; subst. inversion Wl as [|? ? Wx _]; subst.
        destruct n as [|n]; [cbn in Hn; lia|]. cbn [parse_elems ind_elems].
        rewrite !app_assoc_s, (parse_val_ws n w _ Hw').
        rewrite (Hx Wx w); [|done| |by apply val_end_nl].
        2: { change (S (Nat.max (fuel x) 0) <= S n) in Hn. lia. }
        rewrite skip_ws_app; [done|by apply line_break_ws].
      - inversion IH as [|? ? Hx IH']; subst. inversion Wl as [|? ? Wx Wl']; subst.
        change (ind_elems w (x :: y :: l)) with (w ++ indent_json ind w x ++ "," ++ ind_elems w (y :: l)).
        change (fuel_elems (x :: y :: l)) with (S (Nat.max (fuel x) (fuel_elems (y :: l)))) in Hn.
        destruct n as [|n]; [lia|]. cbn [parse_elems]. rewrite !app_assoc_s, (parse_val_ws n w _ Hw').
        rewrite (Hx Wx w); [|done|lia|done]. cbn [String.append skip_ws is_ws].
        change (String "]" r) with ("]" ++ r).
        rewrite (IHl y n IH' Wl'); [done|lia]. }
    cbn [String.append parse_val]. cbn [skip_ws is_ws].
    change (String "]" r) with ("]" ++ r). specialize (He r).
    assert (exists t, ind_elems w (x :: l) ++ nl ++ "]" ++ r = w ++ t /\ val_head t = true) as (t & Ht & Hh).
    { inversion Wl as [|? ? Wx _]; subst. pose proof (val_head_indent x w Wx) as Hx.
      destruct l as [|y l]; cbn [ind_elems]; rewrite !app_assoc_s; eexists; (split; [reflexivity|]);
        by apply val_head_app. }
    rewrite Ht in *. rewrite (skip_ws_app w t Hw'), (skip_ws_head _ Hh), He.
    destruct t as [|c t]; [done|]. destruct c as [[] [] [] [] [] [] [] []]; try done.
  - destruct l as [|[k x] l]; [apply (parse_print (JObj []) W); done|].
    destruct n as [|n]; [cbn in Hn; lia|].
    inversion W as [| | | | |l' Wl]; subst.
    rewrite indent_obj, !app_assoc_s.
    assert (line_break (nl ++ ind)) as Hw by by apply line_break_app.
    revert Hw. generalize (nl ++ ind) as w. intros w Hw. pose proof (line_break_ws w Hw) as Hw'.
    assert (forall r, parse_members n (ind_members w ((k, x) :: l) ++ nl ++ "}" ++ r) = Some ((k, x) :: l, r)) as He.
    { change (fuel (JObj ((k, x) :: l))) with (1 + fuel_members ((k, x) :: l)) in Hn.
      clear W Hr r. assert (fuel_members ((k, x) :: l) <= n) as Hn' by lia. clear Hn. revert k x n IH Wl Hn'.
      induction l as [|[k' y] l IHl]; intros k x n IH Wl Hn r.
      - inversion IH as [|? ? Hx _]; subst. inversion Wl as [|? ? Wx _]; subst.
        destruct n as [|n]; [cbn in Hn; lia|]. cbn [parse_members ind_members].
        unfold print_str. rewrite !app_assoc_s, (skip_ws_app w _ Hw'). cbn [String.append skip_ws is_ws].
        rewrite parse_esc_str. cbn [String.append skip_ws is_ws]. cbn [snd] in Hx, Wx.
        change (String " " (?s)) with (" " ++ s). rewrite (parse_val_ws n " " _ eq_refl).
        change (String "}" r) with ("}" ++ r).
        rewrite (Hx Wx w); [|done| |by apply val_end_nl].
        2: { change (S (Nat.max (fuel x) 0) <= S n) in Hn. lia. }
        rewrite skip_ws_app; [done|by apply line_break_ws].
      - inversion IH as [|? ? Hx IH']; subst. inversion Wl as [|? ? Wx Wl']; subst.
        change (ind_members w ((k, x) :: (k', y) :: l))
          with (w ++ print_str k ++ ": " ++ indent_json ind w x ++ "," ++ ind_members w ((k', y) :: l)).
        change (fuel_members ((k, x) :: (k', y) :: l))
          with (S (Nat.max (fuel x) (fuel_members ((k', y) :: l)))) in Hn.
        destruct n as [|n]; [lia|]. cbn [parse_members].
        unfold print_str. rewrite !app_assoc_s, (skip_ws_app w _ Hw'). cbn [String.append skip_ws is_ws].
        rewrite parse_esc_str. cbn [String.append skip_ws is_ws]. cbn [snd] in Hx, Wx.
        change (String " " (?s)) with (" " ++ s). rewrite (parse_val_ws n " " _ eq_refl).
        rewrite (Hx Wx w); [|done|lia|done]. cbn [String.append skip_ws is_ws].
        change (String "}" r) with ("}" ++ r).
        rewrite (IHl k' y n IH' Wl'); [done|lia]. }
    cbn [String.append parse_val]. cbn [skip_ws is_ws].
    change (String "}" r) with ("}" ++ r). specialize (He r).
    assert (exists t, ind_members w ((k, x) :: l) ++ nl ++ "}" ++ r = w ++ String quote t) as [t Ht].
    { destruct l as [|[k' y] l]; cbn [ind_members]; unfold print_str; rewrite !app_assoc_s; eexists; reflexivity. }
    rewrite Ht in *. rewrite (skip_ws_app w _ Hw'). cbn [skip_ws is_ws quote]. by rewrite He.
Qed.

Lemma parse_json_indent nl v : line_break nl -> wf_json v -> parse_json (indent_json ind nl v) = Some v.
Proof.
  intros Hnl W. unfold parse_json. pose proof (parse_indent v W nl (S (len (indent_json ind nl v))) "" Hnl) as H.
  rewrite app_nil_r_s in H. rewrite H; [done| |done].
  pose proof (fuel_len v W). pose proof (print_le_indent v nl). lia.
Qed.
End indent.

Lemma parse_write_data v : wf_json v -> parse_json (write_data v) = Some v.
Proof. intros W. apply parse_json_indent; [done| |done]. by exists "". Qed.

Lemma parse_gen_write v : wf_json v -> parse_json (gen_write v) = Some v.
Proof. intros W. apply parse_json_indent; [done| |done]. by exists " ". Qed.
