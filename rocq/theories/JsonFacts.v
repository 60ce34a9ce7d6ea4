(** Proofs about the JSON printer and parser. *)
From Verif Require Import Bytes Hex Json CodecFacts.
From Coq Require Import Lia.
Open Scope string_scope.

(* ---------------------------------------------------------------- *)
(** * Strings *)

Lemma parse_esc_char (c : ascii) (r : string) :
  parse_str_body (esc_char c ++ r) =
  match parse_str_body r with Some (t, rest) => Some (String c t, rest) | None => None end.
Proof.
  destruct c as [[] [] [] [] [] [] [] []]; cbn; destruct (parse_str_body r) as [[t rest]|]; done.
Qed.

(** A printed string parses back, with the rest of the input untouched. *)
Lemma parse_esc_str (s r : string) : parse_str_body (esc_str s ++ String quote r) = Some (s, r).
Proof.
  induction s as [|c s IH]; [done|]. cbn [esc_str]. rewrite app_assoc_s, parse_esc_char, IH. done.
Qed.

(* ---------------------------------------------------------------- *)
(** * Numbers *)

(** What may follow a number: nothing, or a byte that cannot continue it. *)
Definition num_end (r : string) : bool :=
  match r with
  | EmptyString => true
  | String c _ => negb (is_digit c) && negb (Ascii.eqb c ".") && negb (Ascii.eqb c "e") && negb (Ascii.eqb c "E")
  end.

(** The first byte of a number: minus or a digit. *)
Definition num_head (s : string) : bool :=
  match s with EmptyString => false | String c _ => is_digit c || Ascii.eqb c "-" end.

Definition num_ok (s : string) : Prop :=
  num_head s = true /\ forall r, num_end r = true -> parse_num (s ++ r) = Some (s, r).

Fixpoint all_digits (s : string) : bool :=
  match s with EmptyString => true | String c r => is_digit c && all_digits r end.

Lemma take_digits_app (d r : string) :
  all_digits d = true -> match r with String c _ => is_digit c = false | EmptyString => True end ->
  take_digits (d ++ r) = (d, r).
Proof.
  intros Hd Hr. induction d as [|c d IH]; cbn in *.
  - destruct r as [|c r]; [done|]. cbn. by rewrite Hr.
  - apply andb_true_iff in Hd as [Hc Hd]. rewrite Hc, IH; done.
Qed.

Lemma digits_of_uint (d : Decimal.uint) : all_digits (DecimalString.NilEmpty.string_of_uint d) = true.
Proof. induction d; cbn; done. Qed.

Lemma num_end_not_digit (r : string) : num_end r = true ->
  match r with String c _ => is_digit c = false | EmptyString => True end.
Proof. destruct r as [|c r]; [done|]. cbn. destruct (is_digit c); done. Qed.

(** After the integer part nothing but the end follows. *)
Lemma parse_num_tail (sign ip r : string) :
  is_empty ip = false -> num_end r = true ->
  (let frac :=
    match r with
    | String "." r => let '(d, t) := take_digits r in if is_empty d then None else Some ("." ++ d, t)
    | _ => Some ("", r)
    end in
  match frac with
  | None => None
  | Some (fp, s3) =>
      let expo :=
        match s3 with
        | String (("e" | "E") as e) r =>
            let '(sg, r1) :=
              match r with
              | String (("+" | "-") as c) r1 => (String c "", r1)
              | _ => ("", r)
              end in
            let '(d, t) := take_digits r1 in
            if is_empty d then None else Some (String e "" ++ sg ++ d, t)
        | _ => Some ("", s3)
        end in
      match expo with
      | None => None
      | Some (ep, s4) => Some (sign ++ ip ++ fp ++ ep, s4)
      end
  end) = Some (sign ++ ip, r).
Proof.
  intros Hip Hr. destruct r as [|c r]; cbn.
  - by rewrite !app_nil_r_s.
  - destruct c as [[] [] [] [] [] [] [] []]; try discriminate Hr; cbn; by rewrite ?app_nil_r_s.
Qed.

Definition no_lead0 (s : string) : bool :=
  match s with String "0" EmptyString => true | String "0" _ => false | _ => true end.

Lemma uint_no_lead0 (d : Decimal.uint) : Decimal.unorm d = d ->
  no_lead0 (DecimalString.NilEmpty.string_of_uint d) = true.
Proof.
  intros H. destruct d as [|d'|d'|d'|d'|d'|d'|d'|d'|d'|d']; try reflexivity. rename d' into d. cbn.
  destruct (DecimalString.NilEmpty.string_of_uint d) eqn:E; [done|].
  exfalso. unfold Decimal.unorm in H. cbn in H.
  destruct (Decimal.nzhead d) eqn:Hz; try discriminate H.
  - injection H as H. by rewrite <- H in E.
  - by apply (DecimalFacts.nzhead_nonzero d u).
Qed.

Lemma unorm_to_uint (p : positive) : Decimal.unorm (Pos.to_uint p) = Pos.to_uint p.
Proof.
  pose proof (DecimalN.Unsigned.to_of (N.to_uint (Npos p))) as H.
  rewrite DecimalN.Unsigned.of_to in H. by cbn in H.
Qed.

Lemma itoa_shape (z : Z) : exists sign ip,
  itoa z = sign ++ ip /\ (sign = "" \/ sign = "-") /\ all_digits ip = true /\
  is_empty ip = false /\ no_lead0 ip = true.
Proof.
  unfold itoa. destruct z as [|p|p]; cbn [Z.to_int].
  - exists "", "0". cbn. auto 6.
  - exists "". cbn. exists (DecimalString.NilZero.string_of_uint (Pos.to_uint p)).
    pose proof (DecimalPos.Unsigned.to_uint_nonnil p) as Hn.
    pose proof (digits_of_uint (Pos.to_uint p)) as Hd.
    pose proof (uint_no_lead0 _ (unorm_to_uint p)) as Hl.
    unfold DecimalString.NilZero.string_of_uint. destruct (Pos.to_uint p); try done; auto 6.
  - exists "-". cbn. exists (DecimalString.NilZero.string_of_uint (Pos.to_uint p)).
    pose proof (DecimalPos.Unsigned.to_uint_nonnil p) as Hn.
    pose proof (digits_of_uint (Pos.to_uint p)) as Hd.
    pose proof (uint_no_lead0 _ (unorm_to_uint p)) as Hl.
    unfold DecimalString.NilZero.string_of_uint. destruct (Pos.to_uint p); try done; auto 6.
Qed.

Lemma int_part (ip r : string) :
  all_digits ip = true -> is_empty ip = false -> no_lead0 ip = true -> num_end r = true ->
  match ip ++ r with String "0" r => ("0", r) | _ => take_digits (ip ++ r) end = (ip, r).
Proof.
  intros Hd He Hl Hr. pose proof (take_digits_app ip r Hd (num_end_not_digit r Hr)) as Ht.
  destruct ip as [|c ip]; [done|].
  destruct c as [[] [] [] [] [] [] [] []]; try exact Ht.
  cbn in Hl. destruct ip; [done|discriminate Hl].
Qed.

Lemma num_ok_itoa (z : Z) : num_ok (itoa z).
Proof.
  destruct (itoa_shape z) as (sign & ip & -> & Hs & Hd & He & Hl). split.
  - destruct Hs as [-> | ->]; [|done]. destruct ip as [|c ip]; [done|]. cbn in *.
    apply andb_true_iff in Hd as [-> _]. done.
  - intros r Hr. rewrite app_assoc_s. unfold parse_num.
    pose proof (int_part ip r Hd He Hl Hr) as Hip.
    destruct Hs as [-> | ->].
    + change ("" ++ ip ++ r) with (ip ++ r).
      assert (match ip ++ r with String "-" r => ("-", r) | _ => ("", ip ++ r) end = ("", ip ++ r)) as ->.
      { destruct ip as [|c ip]; [done|]. destruct c as [[] [] [] [] [] [] [] []]; try done. }
      rewrite Hip, He. exact (parse_num_tail "" ip r He Hr).
    + change ("-" ++ ip ++ r) with (String "-" (ip ++ r)). cbv iota.
      rewrite Hip, He. exact (parse_num_tail "-" ip r He Hr).
Qed.

(* ---------------------------------------------------------------- *)
(** * Values *)

Section json_ind.
Context (Q : json -> Prop).
Hypothesis (HN : Q JNull) (HB : forall b, Q (JBool b)) (HU : forall s, Q (JNum s)) (HS : forall s, Q (JStr s)).
Hypothesis (HA : forall l, Forall Q l -> Q (JArr l)).
Hypothesis (HO : forall l, Forall (λ kv, Q (snd kv)) l -> Q (JObj l)).

Fixpoint json_rect' (v : json) : Q v :=
  match v with
  | JNull => HN
  | JBool b => HB b
  | JNum s => HU s
  | JStr s => HS s
  | JArr l => HA l ((fix go l : Forall Q l := match l with [] => Forall_nil_2 _ | x :: r => Forall_cons_2 _ _ _ (json_rect' x) (go r) end) l)
  | JObj l => HO l ((fix go l : Forall (λ kv, Q (snd kv)) l := match l with [] => Forall_nil_2 _ | kv :: r => Forall_cons_2 _ kv r (json_rect' (snd kv)) (go r) end) l)
  end.
End json_ind.

(** Every number in the value is one that the parser reads back. *)
Inductive wf_json : json -> Prop :=
| wf_null : wf_json JNull
| wf_bool b : wf_json (JBool b)
| wf_num s : num_ok s -> wf_json (JNum s)
| wf_str s : wf_json (JStr s)
| wf_arr l : Forall wf_json l -> wf_json (JArr l)
| wf_obj l : Forall (λ kv, wf_json (snd kv)) l -> wf_json (JObj l).

Fixpoint print_elems (l : list json) : string :=
  match l with
  | [] => ""
  | [x] => print_json x
  | x :: r => print_json x ++ "," ++ print_elems r
  end.

Fixpoint print_members (l : list (string * json)) : string :=
  match l with
  | [] => ""
  | [(k, x)] => print_str k ++ ":" ++ print_json x
  | (k, x) :: r => print_str k ++ ":" ++ print_json x ++ "," ++ print_members r
  end.

Lemma print_arr l : print_json (JArr l) = "[" ++ print_elems l ++ "]".
Proof. done. Qed.
Lemma print_obj l : print_json (JObj l) = "{" ++ print_members l ++ "}".
Proof. done. Qed.

(** Fuel needed to parse the printed form back. *)
Fixpoint fuel (v : json) : nat :=
  match v with
  | JArr l => 1 + (fix go l := match l with [] => 0 | x :: r => S (Nat.max (fuel x) (go r)) end) l
  | JObj l => 1 + (fix go (l : list (string * json)) := match l with [] => 0 | (_, x) :: r => S (Nat.max (fuel x) (go r)) end) l
  | _ => 1
  end.

Definition fuel_elems := fix go (l : list json) := match l with [] => 0 | x :: r => S (Nat.max (fuel x) (go r)) end.
Definition fuel_members := fix go (l : list (string * json)) := match l with [] => 0 | (_, x) :: r => S (Nat.max (fuel x) (go r)) end.

Lemma fuel_pos v : 1 <= fuel v.
Proof. destruct v; cbn; lia. Qed.

(** First byte of a printed value: not white space, not a closing bracket. *)
Definition val_head (s : string) : bool :=
  match s with
  | EmptyString => false
  | String c _ => negb (is_ws c) && negb (Ascii.eqb c "]") && negb (Ascii.eqb c "}")
  end.

Lemma val_head_print v : wf_json v -> val_head (print_json v) = true.
Proof.
  intros H. inversion H as [|[]|s Hs|s|l Hl|l Hl]; subst; try done.
  destruct Hs as [Hh _]. destruct s as [|c s]; [done|]. cbn in *.
  destruct c as [[] [] [] [] [] [] [] []]; done.
Qed.

Lemma val_head_app a b : val_head a = true -> val_head (a ++ b) = true.
Proof. by destruct a. Qed.

Lemma skip_ws_head s : val_head s = true -> skip_ws s = s.
Proof. destruct s as [|c s]; [done|]. cbn. destruct (is_ws c); done. Qed.

Lemma len_pos_head a : val_head a = true -> 1 <= len a.
Proof. destruct a; [done|]. unfold len. cbn. lia. Qed.

Lemma fuel_elems_len l : Forall (λ x, fuel x <= len (print_json x)) l -> fuel_elems l <= len (print_elems l) + 1.
Proof.
  induction l as [|x [|y r] IH]; intros H; [cbn; lia| |].
  - inversion H as [|? ? Hx _]; subst. change (S (Nat.max (fuel x) 0) <= len (print_json x) + 1). lia.
  - inversion H as [|? ? Hx Hr]; subst. specialize (IH Hr).
    change (print_elems (x :: y :: r)) with (print_json x ++ "," ++ print_elems (y :: r)).
    change (fuel_elems (x :: y :: r)) with (S (Nat.max (fuel x) (fuel_elems (y :: r)))).
    rewrite !len_app. change (len ",") with 1. lia.
Qed.

Lemma fuel_members_len l : Forall (λ kv, fuel (snd kv) <= len (print_json (snd kv))) l ->
  fuel_members l <= len (print_members l) + 1.
Proof.
  induction l as [|[k x] [|[k' y] r] IH]; intros H; [cbn; lia| |].
  - inversion H as [|? ? Hx _]; subst. cbn [snd] in Hx.
    change (S (Nat.max (fuel x) 0) <= len (print_str k ++ ":" ++ print_json x) + 1).
    rewrite !len_app. lia.
  - inversion H as [|? ? Hx Hr]; subst. specialize (IH Hr). cbn [snd] in Hx.
    change (print_members ((k, x) :: (k', y) :: r))
      with (print_str k ++ ":" ++ print_json x ++ "," ++ print_members ((k', y) :: r)).
    change (fuel_members ((k, x) :: (k', y) :: r)) with (S (Nat.max (fuel x) (fuel_members ((k', y) :: r)))).
    rewrite !len_app. change (len ",") with 1. lia.
Qed.

Lemma fuel_len v : wf_json v -> fuel v <= len (print_json v).
Proof.
  induction v as [|b|s|s|l IH|l IH] using json_rect'; intros H;
    inversion H as [|b'|s' Hs|s'|l' Hl|l' Hl]; subst.
  - cbn. unfold len. cbn. lia.
  - destruct b; unfold len; cbn; lia.
  - cbn. destruct Hs as [Hh _]. destruct s; [done|]. unfold len. cbn. lia.
  - cbn. unfold len. cbn. lia.
  - rewrite print_arr. change (fuel (JArr l)) with (1 + fuel_elems l).
    rewrite !len_app. change (len "[") with 1. change (len "]") with 1.
    assert (fuel_elems l <= len (print_elems l) + 1); [|lia].
    apply fuel_elems_len. rewrite Forall_forall in *. auto.
  - rewrite print_obj. change (fuel (JObj l)) with (1 + fuel_members l).
    rewrite !len_app. change (len "{") with 1. change (len "}") with 1.
    assert (fuel_members l <= len (print_members l) + 1); [|lia].
    apply fuel_members_len. rewrite Forall_forall in *. auto.
Qed.

(** What may follow a value inside or outside a composite. *)
Definition val_end (r : string) : bool :=
  match r with
  | EmptyString => true
  | String c _ => Ascii.eqb c "," || Ascii.eqb c "]" || Ascii.eqb c "}" || Ascii.eqb c "010"
  end.

Lemma val_end_num r : val_end r = true -> num_end r = true.
Proof. destruct r as [|c r]; [done|]. destruct c as [[] [] [] [] [] [] [] []]; done. Qed.

Lemma parse_val_num n s r : num_ok s -> val_end r = true -> parse_val (S n) (s ++ r) = Some (JNum s, r).
Proof.
  intros [Hh Hp] Hr. specialize (Hp r (val_end_num r Hr)).
  destruct s as [|c s]; [done|].
  cbn [parse_val]. cbn [String.append].
  destruct c as [[] [] [] [] [] [] [] []]; try discriminate Hh; cbn [skip_ws is_ws]; change (String ?c (s ++ r)) with (String c s ++ r); by rewrite Hp.
Qed.

Lemma parse_print v : wf_json v -> forall n r, fuel v <= n -> val_end r = true ->
  parse_val n (print_json v ++ r) = Some (v, r).
Proof.
  induction v as [|b|s|s|l IH|l IH] using json_rect'; intros W n r Hn Hr;
    (destruct n as [|n]; [pose proof (fuel_pos JNull); cbn in Hn; lia|]).
  - done.
  - by destruct b.
  - inversion W; subst. by apply parse_val_num.
  - cbn [print_json]. unfold print_str. rewrite !app_assoc_s. cbn. by rewrite parse_esc_str.
  - inversion W as [| | | |l' Wl|]; subst.
    rewrite print_arr, !app_assoc_s. cbn [String.append].
    destruct l as [|x l]; [done|].
    assert (forall r, parse_elems n (print_elems (x :: l) ++ "]" ++ r) = Some (x :: l, r)) as He.
    { change (fuel (JArr (x :: l))) with (1 + fuel_elems (x :: l)) in Hn.
      clear W Hr r. assert (fuel_elems (x :: l) <= n) as Hn' by lia. clear Hn. revert x n IH Wl Hn'.
      induction l as [|y l IHl]; intros x n IH Wl Hn r.
      - inversion IH as [|? ? Hx _]; subst. inversion Wl as [|? ? Wx _]; subst.
        destruct n as [|n]; [cbn in Hn; lia|]. cbn [parse_elems print_elems].
        rewrite (Hx Wx); [done| |done]. change (S (Nat.max (fuel x) 0) <= S n) in Hn. lia.
      - inversion IH as [|? ? Hx IH']; subst. inversion Wl as [|? ? Wx Wl']; subst.
        change (print_elems (x :: y :: l)) with (print_json x ++ "," ++ print_elems (y :: l)).
        change (fuel_elems (x :: y :: l)) with (S (Nat.max (fuel x) (fuel_elems (y :: l)))) in Hn.
        destruct n as [|n]; [lia|]. cbn [parse_elems]. rewrite !app_assoc_s.
        rewrite (Hx Wx); [|lia|done]. cbn [String.append skip_ws is_ws].
        change (print_elems (y :: l) ++ String "]" r) with (print_elems (y :: l) ++ "]" ++ r).
        rewrite (IHl y n IH' Wl'); [done|lia]. }
    cbn [parse_val]. cbn [skip_ws is_ws].
    assert (val_head (print_elems (x :: l) ++ "]" ++ r) = true) as Hh.
    { apply val_head_app. inversion Wl as [|? ? Wx _]; subst. pose proof (val_head_print x Wx).
      destruct l; [done|]. by apply val_head_app. }
    change (print_elems (x :: l) ++ String "]" r) with (print_elems (x :: l) ++ "]" ++ r).
    rewrite (skip_ws_head _ Hh). rewrite (He r).
    destruct (print_elems (x :: l) ++ "]" ++ r) as [|c t]; [done|].
    destruct c as [[] [] [] [] [] [] [] []]; try done.
  - inversion W as [| | | | |l' Wl]; subst.
    rewrite print_obj, !app_assoc_s. cbn [String.append].
    destruct l as [|[k x] l]; [done|].
    assert (forall r, parse_members n (print_members ((k, x) :: l) ++ "}" ++ r) = Some ((k, x) :: l, r)) as He.
    { change (fuel (JObj ((k, x) :: l))) with (1 + fuel_members ((k, x) :: l)) in Hn.
      clear W Hr r. assert (fuel_members ((k, x) :: l) <= n) as Hn' by lia. clear Hn. revert k x n IH Wl Hn'.
      induction l as [|[k' y] l IHl]; intros k x n IH Wl Hn r.
      - inversion IH as [|? ? Hx _]; subst. inversion Wl as [|? ? Wx _]; subst.
        destruct n as [|n]; [cbn in Hn; lia|]. cbn [parse_members print_members].
        unfold print_str. rewrite !app_assoc_s. cbn [String.append skip_ws is_ws].
        rewrite parse_esc_str. cbn [String.append skip_ws is_ws]. cbn [snd] in Hx.
        change (print_json x ++ String "}" r) with (print_json x ++ "}" ++ r).
        rewrite (Hx Wx); [done| |done]. change (S (Nat.max (fuel x) 0) <= S n) in Hn. lia.
      - inversion IH as [|? ? Hx IH']; subst. inversion Wl as [|? ? Wx Wl']; subst.
        change (print_members ((k, x) :: (k', y) :: l))
          with (print_str k ++ ":" ++ print_json x ++ "," ++ print_members ((k', y) :: l)).
        change (fuel_members ((k, x) :: (k', y) :: l))
          with (S (Nat.max (fuel x) (fuel_members ((k', y) :: l)))) in Hn.
        destruct n as [|n]; [lia|]. cbn [parse_members].
        unfold print_str. rewrite !app_assoc_s. cbn [String.append skip_ws is_ws].
        rewrite parse_esc_str. cbn [String.append skip_ws is_ws]. cbn [snd] in Hx.
        rewrite (Hx Wx); [|lia|done]. cbn [String.append skip_ws is_ws].
        change (print_members ((k', y) :: l) ++ String "}" r) with (print_members ((k', y) :: l) ++ "}" ++ r).
        rewrite (IHl k' y n IH' Wl'); [done|lia]. }
    cbn [parse_val]. cbn [skip_ws is_ws].
    change (print_members ((k, x) :: l) ++ String "}" r) with (print_members ((k, x) :: l) ++ "}" ++ r).
    specialize (He r).
    assert (exists t, print_members ((k, x) :: l) ++ "}" ++ r = String quote t) as [t Ht].
    { destruct l as [|[k' y] l]; cbn; eauto. }
    rewrite Ht in *. cbn [skip_ws is_ws]. by rewrite He.
Qed.

(** json.Unmarshal inverts json.Marshal on values. *)
Lemma parse_json_print v : wf_json v -> parse_json (print_json v) = Some v.
Proof.
  intros W. unfold parse_json. pose proof (parse_print v W (S (len (print_json v))) "") as H.
  rewrite app_nil_r_s in H. rewrite H; [done| |done]. pose proof (fuel_len v W). lia.
Qed.

Lemma decode_json_print v r : wf_json v -> val_end r = true -> decode_json (print_json v ++ r) = Some v.
Proof.
  intros W Hr. unfold decode_json. rewrite (parse_print v W); [done| |done].
  rewrite len_app. pose proof (fuel_len v W). lia.
Qed.

Lemma decode_json_print0 v : wf_json v -> decode_json (print_json v) = Some v.
Proof. intros W. rewrite <- (app_nil_r_s (print_json v)). by apply decode_json_print. Qed.

Lemma wf_strs l : wf_json (JArr (map JStr l)).
Proof. constructor. induction l; constructor; [constructor|done]. Qed.

Lemma dec_strings_map l : dec_strings (map JStr l) = Some l.
Proof. induction l as [|x l IH]; [done|]. cbn. by rewrite IH. Qed.
