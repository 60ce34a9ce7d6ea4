(** A proper beginning of a JSON text is not a JSON text. *)
From Verif Require Import Bytes Hex Json JsonFacts CryptoIO IndentFacts.
Open Scope string_scope.

Lemma app_nil_s (s : string) : (s ++ "")%string = s.
Proof. induction s as [|c s IH]; [done|]. cbn. by rewrite IH. Qed.

(** The parser with tests instead of patterns. *)
Definition esc_of (e : ascii) : option ascii :=
  match e with
  | """" => Some """"%char
  | "\" => Some "\"%char
  | "/" => Some "/"%char
  | "b" => Some "008"%char
  | "f" => Some "012"%char
  | "n" => Some "010"%char
  | "r" => Some "013"%char
  | "t" => Some "009"%char
  | _ => None
  end%char.

Lemma str_body_unfold c r : parse_str_body (String c r) =
  if Ascii.eqb c quote then Some ("", r)
  else if Ascii.eqb c "\" then
    match r with
    | String e r2 =>
        if Ascii.eqb e "u" then
          match r2 with
          | String a (String b (String c (String d r3))) =>
              match hex4 a b c d with
              | None => None
              | Some n => match parse_str_body r3 with
                          | None => None
                          | Some (t, rest) => Some ((if is_surrogate n then utf8_encode 65533 else utf8_encode n) ++ t, rest)
                          end
              end
          | _ => None
          end
        else match esc_of e with
             | None => None
             | Some ch => match parse_str_body r2 with None => None | Some (t, rest) => Some (String ch t, rest) end
             end
    | _ => None
    end
  else if (N_of_ascii c <? 32)%N then None
  else match parse_str_body r with None => None | Some (t, rest) => Some (String c t, rest) end.
Proof.
  destruct (Ascii.eqb_spec c quote) as [->|N1]; [done|].
  destruct (Ascii.eqb_spec c "\") as [->|N2].
  - destruct r as [|e r2]; [done|]. destruct (Ascii.eqb_spec e "u") as [->|N3].
    + destruct r2 as [|a1 [|a2 [|a3 [|a4 r3]]]]; reflexivity.
    + destruct e as [[][][][][][][][]]; reflexivity || by destruct N3.
  - destruct c as [[][][][][][][][]]; reflexivity || by (destruct N1; reflexivity) || by (destruct N2; reflexivity).
Qed.


Lemma str_body_ext t n : forall s k r, String.length s <= n -> parse_str_body s = Some (k, r) -> parse_str_body (s ++ t) = Some (k, r ++ t).
Proof.
  induction n as [|n IH]; intros [|c s] k r L; cbn in L; try lia; try done.
  cbn [String.append]. rewrite !str_body_unfold. destruct (Ascii.eqb c quote); [by intros [= <- <-]|].
  destruct (Ascii.eqb c "\").
  - destruct s as [|e s]; [done|]. cbn in L; cbn [String.append] in *. destruct (Ascii.eqb e "u").
    + destruct s as [|a1 [|a2 [|a3 [|a4 s]]]]; try done. cbn in L; cbn [String.append] in *. destruct (hex4 a1 a2 a3 a4); [|done].
      destruct (parse_str_body s) as [[k' r']|] eqn:E; [|done]. rewrite (IH s k' r' ltac:(lia) E). by intros [= <- <-].
    + destruct (esc_of e); [|done]. destruct (parse_str_body s) as [[k' r']|] eqn:E; [|done].
      rewrite (IH s k' r' ltac:(lia) E). by intros [= <- <-].
  - destruct (N_of_ascii c <? 32)%N; [done|]. destruct (parse_str_body s) as [[k' r']|] eqn:E; [|done].
    rewrite (IH s k' r' ltac:(lia) E). by intros [= <- <-].
Qed.

Lemma str_ext t s k r : parse_str_body s = Some (k, r) -> parse_str_body (s ++ t) = Some (k, r ++ t).
Proof. by apply str_body_ext with (n := String.length s). Qed.

Lemma skip_ws_ext t s c r : skip_ws s = String c r -> skip_ws (s ++ t) = String c (r ++ t).
Proof. induction s as [|d s IH]; [done|]. cbn. destruct (is_ws d); [done|]. by intros [= <- <-]. Qed.

Lemma skip_ws_nil_app r t : skip_ws r = "" -> skip_ws (r ++ t) = skip_ws t.
Proof. induction r as [|d r IH]; [done|]. cbn. destruct (is_ws d); done. Qed.

Lemma digits_ext t s d r : take_digits s = (d, r) -> r <> "" -> take_digits (s ++ t) = (d, r ++ t).
Proof.
  revert d r. induction s as [|c s IH]; cbn; intros d r; [by intros [= <- <-]|].
  destruct (is_digit c); [|by intros [= <- <-]]. destruct (take_digits s) as [d' r']. intros [= <- <-] N.
  by rewrite (IH _ _ eq_refl N).
Qed.

Lemma digits_nil d r : take_digits "" = (d, r) -> r = "".
Proof. by intros [= <- <-]. Qed.

(** parse_num with tests. *)
Definition pn_sign (s : string) : string * string :=
  match s with String c r => if Ascii.eqb c "-" then ("-", r) else ("", s) | _ => ("", s) end.
Definition pn_int (s : string) : string * string :=
  match s with String c r => if Ascii.eqb c "0" then ("0", r) else take_digits s | _ => take_digits s end.
Definition pn_frac (s : string) : option (string * string) :=
  match s with
  | String c r => if Ascii.eqb c "." then let '(d, t) := take_digits r in if is_empty d then None else Some ("." ++ d, t) else Some ("", s)
  | _ => Some ("", s)
  end.
Definition pn_esign (r : string) : string * string :=
  match r with String c r1 => if Ascii.eqb c "+" || Ascii.eqb c "-" then (String c "", r1) else ("", r) | _ => ("", r) end.
Definition pn_exp (s : string) : option (string * string) :=
  match s with
  | String e r =>
      if Ascii.eqb e "e" || Ascii.eqb e "E" then
        let '(sg, r1) := pn_esign r in let '(d, t) := take_digits r1 in
        if is_empty d then None else Some (String e "" ++ sg ++ d, t)
      else Some ("", s)
  | _ => Some ("", s)
  end.

Lemma num_unfold s : parse_num s =
  let '(sign, s1) := pn_sign s in
  let '(ip, s2) := pn_int s1 in
  if is_empty ip then None else
  match pn_frac s2 with
  | None => None
  | Some (fp, s3) => match pn_exp s3 with None => None | Some (ep, s4) => Some (sign ++ ip ++ fp ++ ep, s4) end
  end.
Proof.
  unfold parse_num.
  assert (match s with String "-" r => ("-", r) | _ => ("", s) end = pn_sign s) as ->.
  { destruct s as [|c s]; [done|]. cbn. destruct (Ascii.eqb_spec c "-") as [->|N]; [done|]. destruct c as [[][][][][][][][]]; reflexivity || by destruct N. }
  destruct (pn_sign s) as [sign s1].
  assert (match s1 with String "0" r => ("0", r) | _ => take_digits s1 end = pn_int s1) as ->.
  { destruct s1 as [|c s1]; [done|]. unfold pn_int. destruct (Ascii.eqb_spec c "0") as [->|N]; [done|].
    destruct c as [[][][][][][][][]]; reflexivity || by destruct N. }
  destruct (pn_int s1) as [ip s2]. destruct (is_empty ip); [done|].
  assert (match s2 with String "." r => let '(d, t) := take_digits r in if is_empty d then None else Some ("." ++ d, t) | _ => Some ("", s2) end
    = pn_frac s2) as ->.
  { destruct s2 as [|c s2]; [done|]. unfold pn_frac. destruct (Ascii.eqb_spec c ".") as [->|N]; [done|].
    destruct c as [[][][][][][][][]]; reflexivity || by destruct N. }
  destruct (pn_frac s2) as [[fp s3]|]; [|done].
  assert (forall r, match r with String (("+" | "-") as c) r1 => (String c "", r1) | _ => ("", r) end = pn_esign r) as K.
  { intros [|c r]; [done|]. cbn. destruct (Ascii.eqb_spec c "+") as [->|N]; [done|]. destruct (Ascii.eqb_spec c "-") as [->|N2]; [done|].
    destruct c as [[][][][][][][][]]; reflexivity || by (destruct N; reflexivity) || by (destruct N2; reflexivity). }
  assert (match s3 with
        | String (("e" | "E") as e) r =>
            let '(sg, r1) := match r with String (("+" | "-") as c) r1 => (String c "", r1) | _ => ("", r) end in
            let '(d, t) := take_digits r1 in if is_empty d then None else Some (String e "" ++ sg ++ d, t)
        | _ => Some ("", s3) end = pn_exp s3) as ->; [|done].
  destruct s3 as [|c s3]; [done|]. unfold pn_exp. rewrite <- K.
  destruct (Ascii.eqb_spec c "e") as [->|N]; [reflexivity|]. destruct (Ascii.eqb_spec c "E") as [->|N2]; [reflexivity|].
  destruct c as [[][][][][][][][]]; reflexivity || by (destruct N; reflexivity) || by (destruct N2; reflexivity).
Qed.

Lemma exp_ext t s e r : pn_exp s = Some (e, r) -> r <> "" -> pn_exp (s ++ t) = Some (e, r ++ t).
Proof.
  destruct s as [|c s]; cbn [pn_exp String.append]; [by intros [= <- <-]|].
  destruct (_ || _); [|by intros [= <- <-]].
  destruct (pn_esign s) as [sg r1] eqn:E1. destruct (take_digits r1) as [d r2] eqn:E2. destruct (is_empty d) eqn:E3; [done|]. intros [= <- <-] N.
  assert (pn_esign (s ++ t) = (sg, r1 ++ t)) as ->.
  { destruct s as [|c' s]; cbn in E1 |- *; [injection E1 as <- <-; cbn in E2; injection E2 as <- <-; done|].
    destruct (_ || _); injection E1 as <- <-; done. }
  by rewrite (digits_ext t _ _ _ E2 N), E3.
Qed.

Lemma num_ext t s k r : parse_num s = Some (k, r) -> r <> "" -> parse_num (s ++ t) = Some (k, r ++ t).
Proof.
  rewrite !num_unfold. destruct (pn_sign s) as [sg s1] eqn:E1. destruct (pn_int s1) as [ip s2] eqn:E2. destruct (is_empty ip) eqn:E3; [done|].
  destruct (pn_frac s2) as [[fp s3]|] eqn:E4; [|done]. destruct (pn_exp s3) as [[ep s4]|] eqn:E5; [|done]. intros [= <- <-] N.
  assert (s3 <> "") as N3 by (intros ->; cbn in E5; congruence).
  assert (s2 <> "") as N2 by (intros ->; cbn in E4; congruence).
  assert (s1 <> "") as N1 by (intros ->; cbn in E2; congruence).
  assert (pn_sign (s ++ t) = (sg, s1 ++ t)) as ->.
  { destruct s as [|c s]; cbn in E1 |- *; [injection E1 as <- <-; done|]. destruct (Ascii.eqb c "-"); injection E1 as <- <-; done. }
  assert (pn_int (s1 ++ t) = (ip, s2 ++ t)) as ->.
  { destruct s1 as [|c s1]; [done|]. unfold pn_int in *. cbn [String.append]. destruct (Ascii.eqb c "0"); [by injection E2 as <- <-|].
    apply (digits_ext t) in E2; [|done]. exact E2. }
  rewrite E3.
  assert (pn_frac (s2 ++ t) = Some (fp, s3 ++ t)) as ->.
  { destruct s2 as [|c s2]; [done|]. unfold pn_frac in *. cbn [String.append]. destruct (Ascii.eqb c "."); [|by injection E4 as <- <-].
    destruct (take_digits s2) as [d r2] eqn:E6. destruct (is_empty d) eqn:E7; [done|]. injection E4 as <- <-.
    by rewrite (digits_ext t _ _ _ E6 N3), E7. }
  by rewrite (exp_ext t _ _ _ E5 N).
Qed.

(** The first value with tests. *)
Definition closes (c : ascii) (s : string) : option string :=
  match s with String d r => if Ascii.eqb d c then Some r else None | _ => None end.
Fixpoint lit (l : list ascii) (v : json) (s : string) : option (json * string) :=
  match l with [] => Some (v, s) | c :: l => match closes c s with Some r => lit l v r | None => None end end.

Lemma num_letter c r : is_digit c = false -> c <> "-"%char -> parse_num (String c r) = None.
Proof.
  intros D N. rewrite num_unfold. cbn [pn_sign]. destruct (Ascii.eqb_spec c "-") as [|_]; [done|]. cbn [pn_int].
  destruct (Ascii.eqb_spec c "0") as [->|_]; [done|]. cbn [take_digits]. by rewrite D.
Qed.

Lemma val_unfold n s : parse_val (S n) s =
  match skip_ws s with
  | "" => None
  | String c r =>
      if Ascii.eqb c quote then match parse_str_body r with Some (t, r') => Some (JStr t, r') | None => None end
      else if Ascii.eqb c "n" then lit ["u"; "l"; "l"]%char JNull r
      else if Ascii.eqb c "t" then lit ["r"; "u"; "e"]%char (JBool true) r
      else if Ascii.eqb c "f" then lit ["a"; "l"; "s"; "e"]%char (JBool false) r
      else if Ascii.eqb c "[" then
        match closes "]" (skip_ws r) with
        | Some r' => Some (JArr [], r')
        | None => match parse_elems n r with Some (l, r') => Some (JArr l, r') | None => None end
        end
      else if Ascii.eqb c "{" then
        match closes "}" (skip_ws r) with
        | Some r' => Some (JObj [], r')
        | None => match parse_members n r with Some (l, r') => Some (JObj l, r') | None => None end
        end
      else match parse_num (String c r) with Some (t, r) => Some (JNum t, r) | None => None end
  end.
Proof.
  cbn [parse_val]. destruct (skip_ws s) as [|c r]; [done|].
  destruct (Ascii.eqb_spec c quote) as [->|N1]; [done|].
  destruct (Ascii.eqb_spec c "n") as [->|N2].
  { pose proof (λ r, num_letter "n" r eq_refl ltac:(done)) as K. cbn [lit].
    destruct r as [|a r]; [by rewrite K|]. cbn [closes]. destruct (Ascii.eqb_spec a "u") as [->|M];
      [|destruct a as [[][][][][][][][]]; first [by rewrite K|exfalso; by apply M]].
    destruct r as [|a r]; [by rewrite K|]. cbn [closes]. destruct (Ascii.eqb_spec a "l") as [->|M];
      [|destruct a as [[][][][][][][][]]; first [by rewrite K|exfalso; by apply M]].
    destruct r as [|a r]; [by rewrite K|]. cbn [closes]. destruct (Ascii.eqb_spec a "l") as [->|M];
      [|destruct a as [[][][][][][][][]]; first [by rewrite K|exfalso; by apply M]].
    done. }
  destruct (Ascii.eqb_spec c "t") as [->|N3].
  { pose proof (λ r, num_letter "t" r eq_refl ltac:(done)) as K. cbn [lit].
    destruct r as [|a r]; [by rewrite K|]. cbn [closes]. destruct (Ascii.eqb_spec a "r") as [->|M];
      [|destruct a as [[][][][][][][][]]; first [by rewrite K|exfalso; by apply M]].
    destruct r as [|a r]; [by rewrite K|]. cbn [closes]. destruct (Ascii.eqb_spec a "u") as [->|M];
      [|destruct a as [[][][][][][][][]]; first [by rewrite K|exfalso; by apply M]].
    destruct r as [|a r]; [by rewrite K|]. cbn [closes]. destruct (Ascii.eqb_spec a "e") as [->|M];
      [|destruct a as [[][][][][][][][]]; first [by rewrite K|exfalso; by apply M]].
    done. }
  destruct (Ascii.eqb_spec c "f") as [->|N4].
  { pose proof (λ r, num_letter "f" r eq_refl ltac:(done)) as K. cbn [lit].
    destruct r as [|a r]; [by rewrite K|]. cbn [closes]. destruct (Ascii.eqb_spec a "a") as [->|M];
      [|destruct a as [[][][][][][][][]]; first [by rewrite K|exfalso; by apply M]].
    destruct r as [|a r]; [by rewrite K|]. cbn [closes]. destruct (Ascii.eqb_spec a "l") as [->|M];
      [|destruct a as [[][][][][][][][]]; first [by rewrite K|exfalso; by apply M]].
    destruct r as [|a r]; [by rewrite K|]. cbn [closes]. destruct (Ascii.eqb_spec a "s") as [->|M];
      [|destruct a as [[][][][][][][][]]; first [by rewrite K|exfalso; by apply M]].
    destruct r as [|a r]; [by rewrite K|]. cbn [closes]. destruct (Ascii.eqb_spec a "e") as [->|M];
      [|destruct a as [[][][][][][][][]]; first [by rewrite K|exfalso; by apply M]].
    done. }
  destruct (Ascii.eqb_spec c "[") as [->|N5].
  { destruct (skip_ws r) as [|d r']; [done|]. cbn [closes]. destruct (Ascii.eqb_spec d "]") as [->|M]; [done|].
    destruct d as [[][][][][][][][]]; reflexivity || by destruct M. }
  destruct (Ascii.eqb_spec c "{") as [->|N6].
  { destruct (skip_ws r) as [|d r']; [done|]. cbn [closes]. destruct (Ascii.eqb_spec d "}") as [->|M]; [done|].
    destruct d as [[][][][][][][][]]; reflexivity || by destruct M. }
  destruct c as [[][][][][][][][]];
    first [reflexivity|exfalso; by apply N1|exfalso; by apply N2|exfalso; by apply N3|exfalso; by apply N4|exfalso; by apply N5|exfalso; by apply N6].
Qed.

Lemma elems_unfold n s : parse_elems (S n) s =
  match parse_val n s with
  | None => None
  | Some (v, r) =>
      match skip_ws r with
      | "" => None
      | String c r' =>
          if Ascii.eqb c "," then match parse_elems n r' with Some (l, r'') => Some (v :: l, r'') | None => None end
          else if Ascii.eqb c "]" then Some ([v], r') else None
      end
  end.
Proof.
  cbn [parse_elems]. destruct (parse_val n s) as [[v r]|]; [|done]. destruct (skip_ws r) as [|c r']; [done|].
  destruct (Ascii.eqb_spec c ",") as [->|N1]; [done|]. destruct (Ascii.eqb_spec c "]") as [->|N2]; [done|].
  destruct c as [[][][][][][][][]]; first [reflexivity|exfalso; by apply N1|exfalso; by apply N2].
Qed.

Lemma members_unfold n s : parse_members (S n) s =
  match closes quote (skip_ws s) with
  | None => None
  | Some r0 =>
      match parse_str_body r0 with
      | None => None
      | Some (k, r1) =>
          match closes ":" (skip_ws r1) with
          | None => None
          | Some r2 =>
              match parse_val n r2 with
              | None => None
              | Some (v, r3) =>
                  match skip_ws r3 with
                  | "" => None
                  | String c r4 =>
                      if Ascii.eqb c "," then match parse_members n r4 with Some (l, r5) => Some ((k, v) :: l, r5) | None => None end
                      else if Ascii.eqb c "}" then Some ([(k, v)], r4) else None
                  end
              end
          end
      end
  end.
Proof.
  cbn [parse_members]. destruct (skip_ws s) as [|c r0]; [done|]. cbn [closes].
  destruct (Ascii.eqb_spec c quote) as [->|N0]; [|destruct c as [[][][][][][][][]]; first [reflexivity|exfalso; by apply N0]].
  cbn. destruct (parse_str_body r0) as [[k r1]|]; [|done]. destruct (skip_ws r1) as [|c r2]; [done|]. cbn [closes].
  destruct (Ascii.eqb_spec c ":") as [->|N1]; [|destruct c as [[][][][][][][][]]; first [reflexivity|exfalso; by apply N1]].
  destruct (parse_val n r2) as [[v r3]|]; [|done]. destruct (skip_ws r3) as [|c r4]; [done|].
  destruct (Ascii.eqb_spec c ",") as [->|N1]; [done|]. destruct (Ascii.eqb_spec c "}") as [->|N2]; [done|].
  destruct c as [[][][][][][][][]]; first [reflexivity|exfalso; by apply N1|exfalso; by apply N2].
Qed.

Lemma closes_ext t c s r : closes c (skip_ws s) = Some r -> closes c (skip_ws (s ++ t)) = Some (r ++ t).
Proof.
  destruct (skip_ws s) as [|d r'] eqn:E; [done|]. rewrite (skip_ws_ext t _ _ _ E). cbn. destruct (Ascii.eqb d c); [|done]. by intros [= <-].
Qed.

Lemma lit_ext t l v s v' r : lit l v s = Some (v', r) -> lit l v (s ++ t) = Some (v', r ++ t).
Proof.
  revert s. induction l as [|c l IH]; intros s; cbn; [by intros [= <- <-]|]. destruct s as [|d s]; [done|]. cbn. destruct (Ascii.eqb d c); [apply IH|done].
Qed.

Lemma skip_ws_nonempty s c r : skip_ws s = String c r -> s <> "".
Proof. intros E ->. done. Qed.

(** More fuel and more text after the value change nothing. *)
Lemma parse_more t : forall n,
  (forall s v r m, parse_val n s = Some (v, r) -> n <= m -> (forall k, v = JNum k -> r <> "") -> parse_val m (s ++ t) = Some (v, r ++ t)) /\
  (forall s l r m, parse_elems n s = Some (l, r) -> n <= m -> parse_elems m (s ++ t) = Some (l, r ++ t)) /\
  (forall s l r m, parse_members n s = Some (l, r) -> n <= m -> parse_members m (s ++ t) = Some (l, r ++ t)).
Proof.
  induction n as [|n (IHv & IHe & IHm)]; [done|]. split_and!.
  - intros s v r [|m] H L K; [lia|]. rewrite val_unfold in *. destruct (skip_ws s) as [|c s'] eqn:E; [done|].
    rewrite (skip_ws_ext t _ _ _ E). destruct (Ascii.eqb c quote).
    { destruct (parse_str_body s') as [[k r']|] eqn:E1; [|done]. injection H as <- <-. by rewrite (str_ext t _ _ _ E1). }
    destruct (Ascii.eqb c "n"); [|destruct (Ascii.eqb c "t"); [|destruct (Ascii.eqb c "f")]].
    1-3: by apply lit_ext.
    destruct (Ascii.eqb c "[").
    { destruct (closes "]" (skip_ws s')) as [r'|] eqn:E1.
      - injection H as <- <-. by rewrite (closes_ext t _ _ _ E1).
      - destruct (parse_elems n s') as [[l r']|] eqn:E2; [|done]. injection H as <- <-.
        rewrite (IHe _ _ _ m E2 ltac:(lia)). destruct (closes "]" (skip_ws (s' ++ t))) as [r''|] eqn:E3; [|done]. exfalso.
        destruct n as [|n]; [done|]. rewrite elems_unfold in E2. destruct n as [|n]; [done|]. rewrite val_unfold in E2.
        destruct (skip_ws s') as [|c' s''] eqn:E4; [done|]. rewrite (skip_ws_ext t _ _ _ E4) in E3. cbn in E1, E3. by destruct (Ascii.eqb c' "]"). }
    destruct (Ascii.eqb c "{").
    { destruct (closes "}" (skip_ws s')) as [r'|] eqn:E1.
      - injection H as <- <-. by rewrite (closes_ext t _ _ _ E1).
      - destruct (parse_members n s') as [[l r']|] eqn:E2; [|done]. injection H as <- <-.
        rewrite (IHm _ _ _ m E2 ltac:(lia)). destruct (closes "}" (skip_ws (s' ++ t))) as [r''|] eqn:E3; [|done]. exfalso.
        destruct n as [|n]; [done|]. rewrite members_unfold in E2.
        destruct (skip_ws s') as [|c' s''] eqn:E4; [done|]. rewrite (skip_ws_ext t _ _ _ E4) in E3. cbn in E1, E3. by destruct (Ascii.eqb c' "}"). }
    destruct (parse_num (String c s')) as [[k r']|] eqn:E1; [|done]. injection H as <- <-.
    change (String c (s' ++ t)) with (String c s' ++ t). by rewrite (num_ext t _ _ _ E1 (K k eq_refl)).
  - intros s l r [|m] H L; [lia|]. rewrite elems_unfold in *. destruct (parse_val n s) as [[v r']|] eqn:E; [|done].
    destruct (skip_ws r') as [|c r''] eqn:E1; [done|].
    rewrite (IHv _ _ _ m E ltac:(lia) (λ _ _, skip_ws_nonempty _ _ _ E1)), (skip_ws_ext t _ _ _ E1).
    destruct (Ascii.eqb c ",").
    + destruct (parse_elems n r'') as [[l' r3]|] eqn:E2; [|done]. injection H as <- <-. by rewrite (IHe _ _ _ m E2 ltac:(lia)).
    + destruct (Ascii.eqb c "]"); [|done]. by injection H as <- <-.
  - intros s l r [|m] H L; [lia|]. rewrite members_unfold in *. destruct (closes quote (skip_ws s)) as [r0|] eqn:E0; [|done].
    rewrite (closes_ext t _ _ _ E0). destruct (parse_str_body r0) as [[k r1]|] eqn:E1; [|done]. rewrite (str_ext t _ _ _ E1).
    destruct (closes ":" (skip_ws r1)) as [r2|] eqn:E2; [|done]. rewrite (closes_ext t _ _ _ E2).
    destruct (parse_val n r2) as [[v r3]|] eqn:E3; [|done]. destruct (skip_ws r3) as [|c r4] eqn:E4; [done|].
    rewrite (IHv _ _ _ m E3 ltac:(lia) (λ _ _, skip_ws_nonempty _ _ _ E4)), (skip_ws_ext t _ _ _ E4).
    destruct (Ascii.eqb c ",").
    + destruct (parse_members n r4) as [[l' r5]|] eqn:E5; [|done]. injection H as <- <-. by rewrite (IHm _ _ _ m E5 ltac:(lia)).
    + destruct (Ascii.eqb c "}"); [|done]. by injection H as <- <-.
Qed.

(** Objects and arrays. *)
Definition container (v : json) : Prop := match v with JObj _ | JArr _ => True | _ => False end.

Lemma indent_head ind nl v : container v -> exists c r, indent_json ind nl v = String c r /\ (c = "{"%char \/ c = "["%char).
Proof. destruct v as [| | | |[|x l]|[|x l]]; try done; intros _; eexists _, _; (split; [reflexivity|auto]). Qed.

Lemma len_app_s (a b : string) : len (a ++ b) = len a + len b.
Proof. unfold len. induction a as [|c a IH]; [done|]. cbn. by rewrite IH. Qed.

(** No proper beginning of the indented text of an object or array is JSON. *)
Lemma prefix_no_json ind nl v p t : line_break nl -> all_ws ind = true -> wf_json v -> container v -> indent_json ind nl v = p ++ t -> t <> "" ->
  parse_json p = None.
Proof.
  intros Hn Hi W C E N. unfold parse_json. destruct (parse_val (S (len p)) p) as [[v' r]|] eqn:V; [|done].
  destruct (is_empty (skip_ws r)) eqn:R; [|done]. exfalso.
  assert (skip_ws r = "") as R' by (by destruct (skip_ws r)).
  destruct (indent_head ind nl v C) as (c & r0 & E0 & Hc).
  assert (forall k, v' = JNum k -> r <> "") as K.
  { intros k ->. exfalso. destruct p as [|c' p]; [by rewrite val_unfold in V|]. rewrite E0 in E. injection E as <- _.
    rewrite val_unfold in V. destruct Hc as [-> | ->]; cbn [skip_ws is_ws] in V; cbn [Ascii.eqb Bool.eqb quote] in V;
    (destruct (closes _ _); [done|]); [destruct (parse_members _ _) as [[]|]|destruct (parse_elems _ _) as [[]|]]; done. }
  pose proof (proj1 (parse_more t (S (len p))) p v' r (S (len (p ++ t))) V ltac:(rewrite len_app_s; lia) K) as H.
  pose proof (parse_indent ind Hi v W nl (S (len (p ++ t))) "") as H2.
  rewrite app_nil_s in H2. rewrite <- E in H, H2. rewrite H2 in H; [|done| |done].
  - injection H as _ H. destruct r; cbn in H; [by rewrite <- H in N|done].
  - pose proof (print_le_indent ind v nl). pose proof (fuel_len v W). lia.
Qed.
