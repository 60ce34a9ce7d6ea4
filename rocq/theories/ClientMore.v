(** More facts about clients: files, restarts and histories. *)
From Verif Require Import Bytes Hex Base64 Base64Facts Json JsonFacts Types Crypto Verify SpecVerify VerifyFacts CodecFacts WireFacts SpecCodec Merkle Cert CTngExt ExtFacts
  Bitset BitsetFacts Revocation Monitor MonitorMore SpecCert Clock Logger LoggerFacts RefuteMonitor Client SpecClient ClientFacts.
Open Scope string_scope.

(** ** Sets that were read *)
Lemma be_value_bound s : forall x, (be_value s x < (x + 1) * 256 ^ N.of_nat (len s))%N.
Proof.
  induction s as [|a s IH]; intros x; cbn [be_value].
  - change (256 ^ N.of_nat (len ""))%N with 1%N. lia.
  - eapply N.lt_le_trans; [apply IH|]. change (len (String a s)) with (S (len s)). rewrite Nat2N.inj_succ, N.pow_succ_r'.
    pose proof (N_ascii_bounded a). rewrite N.mul_assoc. apply N.mul_le_mono_r. lia.
Qed.

Lemma split_at_len k : forall s a b, split_at k s = Some (a, b) -> len a = k.
Proof.
  induction k as [|k IH]; intros s a b; cbn.
  - destruct s; by intros [= <- <-].
  - destruct s as [|x s]; [done|]. destruct (split_at k s) as [[a' b']|] eqn:E; [|done].
    intros [= <- <-]. cbn. f_equal. by eapply IH.
Qed.

Lemma word_bound w : len w = 8 -> (be_value w 0 < word_size)%N.
Proof. intros E. pose proof (be_value_bound w 0) as H. rewrite E in H. exact H. Qed.

Lemma get_words_bound k : forall s v, get_words k s = Some v -> (v < word_size ^ N.of_nat k)%N.
Proof.
  induction k as [|k IH]; intros s v; cbn [get_words]; [intros [= <-]; done|].
  destruct (split_at 8 s) as [[w r]|] eqn:S; [|done]. destruct (get_words k r) as [x|] eqn:G; [|done]. intros [= <-].
  apply split_at_len, word_bound in S. apply IH in G. rewrite Nat2N.inj_succ, N.pow_succ_r'.
  apply (N.lt_le_trans _ (word_size * (x + 1))); [|apply N.mul_le_mono_l; lia]. rewrite N.mul_add_distr_l, N.mul_1_r, N.add_comm. by apply N.add_lt_mono_l.
Qed.

Lemma bs_read_ok s b : bs_unmarshal s = Some b -> bs_ok b.
Proof.
  unfold bs_unmarshal. destruct (split_at 8 s) as [[l r]|] eqn:S; [|done]. destruct (N.ltb _ _); [done|].
  destruct (get_words _ r) as [v|] eqn:G; [|done]. intros [= <-]. split; cbn [bs_len bs_bits].
  - by apply split_at_len, word_bound in S.
  - apply get_words_bound in G. by rewrite N2Nat.id in G.
Qed.

Lemma bs_zero_ok : bs_ok bs_zero.
Proof. split; done. Qed.

Lemma dcrv_ok z g : bs_ok (snd (srh_and_dcrv z g)).
Proof.
  unfold srh_and_dcrv. cbn [snd]. destruct (bs_unmarshal _) eqn:E; [by eapply bs_read_ok|apply bs_zero_ok].
Qed.

(** ** Tables written and read *)
Lemma fold_table {A B} (f : A -> B) (l : list (string * A)) : NoDup l.*1 -> forall m : gmap string B,
  fold_left (λ m kv, <[fst kv := f (snd kv)]> m) l m = list_to_map (map (λ kv, (fst kv, f (snd kv))) l) ∪ m.
Proof.
  induction l as [|[k v] l IH]; intros N m; cbn [fold_left map list_to_map foldr fst snd].
  - symmetry. apply (left_id_L ∅ (∪)).
  - apply NoDup_cons in N as [N1 N2]. rewrite IH by done. cbn. rewrite <- insert_union_l. symmetry. apply insert_union_r.
    apply not_elem_of_list_to_map_1. intros I. apply N1. rewrite <- list_fmap_compose in I.
    apply elem_of_list_fmap in I as ([k' v'] & E & I). cbn in E. subst k'.
    apply elem_of_list_fmap. by exists (k, v').
Qed.

Lemma list_to_map_values {A B} (f : A -> B) (m : gmap string A) :
  (list_to_map (map (λ kv, (fst kv, f (snd kv))) (map_to_list m)) : gmap string B) = f <$> m.
Proof.
  apply map_eq. intros k. rewrite lookup_fmap. destruct (m !! k) as [v|] eqn:E; cbn.
  - apply elem_of_list_to_map.
    + enough ((map (λ kv, (fst kv, f (snd kv))) (map_to_list m)).*1 = (map_to_list m).*1) as -> by apply NoDup_fst_map_to_list.
      generalize (map_to_list m). intros l. induction l as [|x l IH]; [done|]. cbn. by f_equal.
    + apply elem_of_list_fmap. exists (k, v). split; [done|]. by apply elem_of_map_to_list.
  - apply not_elem_of_list_to_map_1. intros I. apply elem_of_list_fmap in I as ([k' v'] & X & I). cbn in X. subst k'.
    apply elem_of_list_fmap in I as ([k' v''] & X & I). cbn in X. injection X as -> _.
    apply elem_of_map_to_list in I. congruence.
Qed.

Lemma fold_map_l {A B C} (f : A -> B) (g : C -> B -> C) l : forall x, fold_left g (map f l) x = fold_left (λ y a, g y (f a)) l x.
Proof. induction l as [|a l IH]; intros x; [done|]. cbn. apply IH. Qed.

Section files.
Implicit Types (s : clst).

Lemma sth_file_read s : load_sth (Some (save_sth s)) = cl_sth s.
Proof.
  unfold load_sth, save_sth. rewrite parse_json_print.
  - rewrite fold_map_l. transitivity (fold_left (λ (y : gmap string string) a, <[fst a:=(λ x, x) (snd a)]> y) (map_to_list (cl_sth s)) ∅); [done|].
    rewrite (fold_table (λ x, x)) by apply NoDup_fst_map_to_list.
    rewrite (list_to_map_values (λ x, x)). rewrite (right_id_L ∅ (∪)). apply map_fmap_id.
  - constructor. apply Forall_fmap. apply Forall_true. intros x. constructor.
Qed.

Lemma pom_file_read s : load_pom (Some (save_pom s)) = cl_pom s.
Proof.
  unfold load_pom, save_pom. rewrite parse_json_print.
  - rewrite fold_map_l. cbn [fst snd].
    transitivity (fold_left (λ (y : gmap string gobj) (a : string * gobj), <[a.1:=(λ x, x) a.2]> y) (map_to_list (cl_pom s)) ∅).
    { generalize (∅ : gmap string gobj). induction (map_to_list (cl_pom s)) as [|x l IH]; intros m; [done|].
      cbn [fold_left]. rewrite gobj_tol_json. apply IH. }
    rewrite (fold_table (λ x, x)) by apply NoDup_fst_map_to_list.
    rewrite (list_to_map_values (λ x, x)). rewrite (right_id_L ∅ (∪)). apply map_fmap_id.
  - constructor. apply Forall_fmap. apply Forall_true. intros x. apply wf_gobj.
Qed.

Lemma read_crvs_fold (l : list (string * bitset)) : Forall (λ kv, bs_ok (snd kv)) l -> forall m,
  read_crvs m (map (λ kv, (fst kv, JStr (b64_encode (bs_marshal (snd kv))))) l) = Some (fold_left (λ m kv, <[fst kv := snd kv]> m) l m).
Proof.
  induction 1 as [|[k v] l K _ IH]; intros m; [done|]. cbn [map read_crvs fst snd fold_left].
  rewrite b64_roundtrip, bs_roundtrip by done. cbn. apply IH.
Qed.

Lemma crv_file_read s : map_Forall (λ _, bs_ok) (cl_crv s) -> load_crv (Some (save_crv s)) = Some (cl_crv s).
Proof.
  intros H. unfold load_crv, save_crv. rewrite parse_json_print.
  - rewrite read_crvs_fold.
    + f_equal. rewrite (fold_table (λ x, x)) by apply NoDup_fst_map_to_list.
      rewrite (list_to_map_values (λ x, x)). rewrite (right_id_L ∅ (∪)). apply map_fmap_id.
    + apply Forall_forall. intros [k v] I. apply elem_of_map_to_list in I. by apply (H k v).
  - constructor. apply Forall_fmap. apply Forall_true. intros x. constructor.
Qed.

Lemma read_crvs_ok l : forall m m', read_crvs m l = Some m' -> map_Forall (λ _, bs_ok) m -> map_Forall (λ _, bs_ok) m'.
Proof.
  induction l as [|[k v] l IH]; intros m m'; cbn [read_crvs]; [by intros [= <-]|].
  destruct (match v with JStr t => b64_decode t | JNull => Some "" | _ => None end) as [b|]; [|done].
  intros H M. eapply IH; [exact H|]. apply map_Forall_insert_2; [|done].
  destruct (bs_unmarshal b) eqn:E; [by eapply bs_read_ok|apply bs_zero_ok].
Qed.
Lemma load_crv_ok f m : load_crv f = Some m -> map_Forall (λ _, bs_ok) m.
Proof.
  unfold load_crv. destruct f as [t|]; [|intros [= <-]; apply map_Forall_empty].
  destruct (parse_json t) as [[]|]; try done; [intros [= <-]; apply map_Forall_empty|]. intros H. by eapply read_crvs_ok; [|apply map_Forall_empty].
Qed.
End files.

Section histories.
Context {P : prims} (z : gzip) (c : cconf P).
Implicit Types (s : clst) (crt : cert) (i : loginfo) (u : update) (g : gobj) (y : clsys).
Notation handle_update := (handle_update z c).
Notation cl_step := (cl_step z c).
Notation cl_run := (cl_run z c).

Lemma run_app l1 : forall l2 y y2 os, cl_run y (l1 ++ l2) = Some (y2, os) ->
  exists y1 o1 o2, cl_run y l1 = Some (y1, o1) /\ cl_run y1 l2 = Some (y2, o2) /\ os = (o1 ++ o2)%list.
Proof.
  induction l1 as [|e l1 IH]; intros l2 y y2 os; cbn [app Client.cl_run]; [eauto 10|].
  destruct (cl_step y e) as [[y1 o]|]; [|done]. destruct (cl_run y1 (l1 ++ l2)) as [[y3 os']|] eqn:E; [|done].
  intros [= <- <-]. destruct (IH _ _ _ _ E) as (y4 & o1 & o2 & H1 & H2 & ->). rewrite H1. eauto 10.
Qed.

Lemma run_app_2 l1 : forall l2 y y1 y2 o1 o2, cl_run y l1 = Some (y1, o1) -> cl_run y1 l2 = Some (y2, o2) ->
  cl_run y (l1 ++ l2) = Some (y2, o1 ++ o2)%list.
Proof.
  induction l1 as [|e l1 IH]; intros l2 y y1 y2 o1 o2; cbn [app Client.cl_run]; [by intros [= <- <-]|].
  destruct (cl_step y e) as [[y3 o]|]; [|done]. destruct (cl_run y3 l1) as [[y4 os']|] eqn:E; [|done].
  intros [= <- <-] H. by rewrite (IH _ _ _ _ _ _ E H).
Qed.

(** The last step of a history. *)
Lemma run_inv (I : clsys -> Prop) l : (forall y e y' o, e ∈ l -> I y -> cl_step y e = Some (y', o) -> I y') ->
  forall y y' os, I y -> cl_run y l = Some (y', os) -> I y'.
Proof.
  induction l as [|e l IH]; intros S y y' os Y; cbn [Client.cl_run]; [by intros [= <- _]|].
  destruct (cl_step y e) as [[y1 o]|] eqn:E; [|done]. destruct (cl_run y1 l) as [[y2 os']|] eqn:R; [|done]. intros [= <- _].
  eapply IH; [|eapply S; [by left|exact Y|exact E]|exact R]. intros ? ? ? ? ?. eapply S. by right.
Qed.

(** ** What is stored can be read back *)
Definition files_ok (y : clsys) : Prop := map_Forall (λ _, bs_ok) (cl_crv (cs_cl y)) /\ is_Some (load_crv (cs_crv_file y)).

Lemma handle_vectors_ok s flag u s' o : handle_update s flag u = (s', o) -> map_Forall (λ _, bs_ok) (cl_crv s) -> map_Forall (λ _, bs_ok) (cl_crv s').
Proof.
  intros H M ca d D. destruct (vector_from z c _ _ _ _ _ _ _ H D) as [X|(g & _ & _ & -> & _)]; [by apply (M ca)|apply dcrv_ok].
Qed.

Lemma update_step y flag u y' o : cl_step y (KUpdate flag u) = Some (y', o) ->
  handle_update (cs_cl y) flag u = (cs_cl y', o) /\ o <> Died /\ cs_sth_file y' = cs_sth_file y /\ cs_crv_file y' = cs_crv_file y /\ cs_pom_file y' = cs_pom_file y.
Proof.
  cbn. destruct (handle_update (cs_cl y) flag u) as [s []]; try done; by intros [= <- <-].
Qed.

Lemma files_step y e y' o : files_ok y -> cl_step y e = Some (y', o) -> files_ok y'.
Proof.
  intros [F1 F2] H. destruct e as [flag u| |].
  - apply update_step in H as (H & _ & _ & E & _). split; [by eapply handle_vectors_ok|by rewrite E].
  - cbn [Client.cl_step] in H. injection H as <- _. split; [done|]. cbn [cs_crv_file]. rewrite crv_file_read by done. by eexists.
  - cbn in H. destruct (load_crv (cs_crv_file y)) as [m|] eqn:E; [|done]. injection H as <- _. split; cbn.
    + by eapply load_crv_ok.
    + by rewrite E.
Qed.

Lemma lived_files l y os : lived z c l y os -> files_ok y.
Proof.
  apply run_inv; [|split; [apply map_Forall_empty|by eexists]]. intros. by eapply files_step.
Qed.

Lemma save_restart l y os : lived z c l y os -> exists y', lived z c (l ++ [KSave; KRestart]) y' (os ++ [Applied; Applied]) /\
  cl_sth (cs_cl y') = cl_sth (cs_cl y) /\ cl_crv (cs_cl y') = cl_crv (cs_cl y) /\ idle (cs_cl y') /\
  load_pom (cs_pom_file y') = cl_pom (cs_cl y).
Proof.
  intros H. pose proof (lived_files _ _ _ H) as [F _]. eexists. split; [eapply run_app_2; [exact H|]|].
  - cbn [Client.cl_run Client.cl_step cs_sth_file cs_crv_file cs_pom_file cs_cl]. unfold client_init. cbn [String.eqb].
    rewrite crv_file_read by done. reflexivity.
  - cbn [cs_cl cl_sth cl_crv cs_pom_file]. rewrite sth_file_read, pom_file_read. done.
Qed.

(** A client that lived can always be started again. *)
Lemma restart_works l y os : lived z c l y os -> exists y', lived z c (l ++ [KRestart]) y' (os ++ [Applied]) /\
  cl_pom (cs_cl y') = ∅ /\ idle (cs_cl y').
Proof.
  intros H. pose proof (lived_files _ _ _ H) as [_ [m F]]. eexists. split; [eapply run_app_2; [exact H|]|].
  - cbn [Client.cl_run Client.cl_step]. unfold client_init. cbn [String.eqb]. rewrite F. reflexivity.
  - done.
Qed.

(** ** Vectors *)
Definition holds (ca : string) (v : bitset) (sv : bool) (y : clsys) : Prop :=
  cl_crv (cs_cl y) !! ca = Some v /\ (sv = true -> exists m, load_crv (cs_crv_file y) = Some m /\ m !! ca = Some v).

Lemma holds_run ca v l : forall y y' os sv, files_ok y -> (sv = true \/ durable l) -> holds ca v sv y -> cl_run y l = Some (y', os) ->
  cl_crv (cs_cl y') !! ca = Some v.
Proof.
  induction l as [|e l IH]; intros y y' os sv F D H; cbn [Client.cl_run]; [intros [= <- _]; apply H|].
  destruct (cl_step y e) as [[y1 o]|] eqn:E; [|done]. destruct (cl_run y1 l) as [[y2 os']|] eqn:R; [|done]. intros [= <- _].
  pose proof (files_step _ _ _ _ F E) as F1. destruct e as [flag u| |].
  - apply (IH y1 y2 os' sv F1); [|split|done].
    + destruct D as [D|D]; [by left|right]. intros a b X. specialize (D (KUpdate flag u :: a) b). rewrite X in D.
      specialize (D eq_refl). apply elem_of_cons in D as [D|D]; [done|exact D].
    + apply update_step in E as (E & _). eapply vector_kept; [exact E|apply H].
    + apply update_step in E as (_ & _ & _ & -> & _). apply H.
  - apply (IH y1 y2 os' true F1); [by left|split|done].
    + cbn [Client.cl_step] in E. injection E as <- _. apply H.
    + intros _. cbn [Client.cl_step] in E. injection E as <- _. cbn [cs_crv_file]. rewrite crv_file_read by apply F. eexists. split; [done|apply H].
  - destruct D as [-> |D]; [|by specialize (D [] l eq_refl); apply elem_of_nil in D].
    destruct H as [_ H]. destruct (H eq_refl) as (m & M1 & M2).
    apply (IH y1 y2 os' true F1); [by left|split|done]; cbn in E; rewrite M1 in E; injection E as <- _; [done|]. intros _. by exists m.
Qed.

Lemma revoked_not_accepted s crt v : cl_crv s !! c_issuer_cn crt = Some v -> revoked_in v crt ->
  check_certificate c s crt <> Accept /\ ((forall i, i ∈ relied_on crt -> harmless c s i) -> check_certificate c s crt = Reject).
Proof.
  intros V R. unfold check_certificate. rewrite V. apply bs_test_true in R. rewrite R. split.
  - destruct (count_faulty _ _ _ _); [|done]. by destruct (Nat.eqb _ _).
  - intros H. destruct (count_total c s crt _ H) as [n HN]. unfold relied_on in HN. rewrite HN. by destruct (Nat.eqb _ _).
Qed.

Lemma revoked_from_then_on l1 flag u l2 y os y0 os0 s1 a g b crt :
  lived z c l1 y0 os0 -> handle_update (cs_cl y0) flag u = (s1, Applied) ->
  u_revs u = (a ++ g :: b)%list -> cl_crv (cs_cl y0) !! g_p0 g = None -> (forall x, x ∈ a -> g_p0 x <> g_p0 g) ->
  lived z c (l1 ++ KUpdate flag u :: l2) y os -> durable l2 ->
  c_issuer_cn crt = g_p0 g -> revoked_in (snd (srh_and_dcrv z g)) crt ->
  check_certificate c (cs_cl y) crt <> Accept /\
  ((forall i, i ∈ relied_on crt -> harmless c (cs_cl y) i) -> check_certificate c (cs_cl y) crt = Reject).
Proof.
  intros H0 HU E N A H D I R. eapply revoked_not_accepted; [|exact R]. rewrite I.
  apply run_app in H as (y1 & o1 & o2 & R1 & R2 & _). unfold lived in H0. rewrite H0 in R1. injection R1 as <- <-.
  cbn [Client.cl_run] in R2. destruct (cl_step y0 (KUpdate flag u)) as [[y2 o]|] eqn:ST; [|done].
  destruct (cl_run y2 l2) as [[y3 os3]|] eqn:R3; [|done]. injection R2 as -> _.
  pose proof (files_step _ _ _ _ (lived_files _ _ _ H0) ST) as F. apply update_step in ST as (ST & _). rewrite HU in ST. injection ST as -> <-.
  eapply (holds_run _ _ l2 y2 y os3 false F); [by right| |exact R3]. split; [|done].
  by eapply first_delta_applied.
Qed.

(** Once there is a vector it is the only one, until a restart. *)
Lemma vector_frozen y l y' os ca v : cl_run y l = Some (y', os) -> KRestart ∉ l -> cl_crv (cs_cl y) !! ca = Some v -> cl_crv (cs_cl y') !! ca = Some v.
Proof.
  intros H N V. revert H. eapply (run_inv (λ y, cl_crv (cs_cl y) !! ca = Some v)); [|done].
  intros y1 e y2 o I Y ST. destruct e as [flag u| |]; [|by injection ST as <- _|done].
  apply update_step in ST as (ST & _). by eapply vector_kept.
Qed.

(** ** Refusal *)
Lemma refused_for_ever y l y' os : ~ idle (cs_cl y) -> KRestart ∉ l -> cl_run y l = Some (y', os) ->
  forall n flag u, l !! n = Some (KUpdate flag u) -> os !! n <> Some Applied.
Proof.
  revert y os. induction l as [|e l IH]; intros y os B N; cbn [Client.cl_run]; [by intros _ []|].
  destruct (cl_step y e) as [[y1 o]|] eqn:E; [|done]. destruct (cl_run y1 l) as [[y2 os']|] eqn:R; [|done]. intros [= -> <-].
  assert (~ idle (cs_cl y1) /\ (forall flag u, e = KUpdate flag u -> o <> Applied)) as [B1 O].
  { destruct e as [flag u| |].
    - apply update_step in E as (E & _). apply locks_stay in E as [E1 E2]; [|done]. split; [done|]. by intros ? ? _.
    - injection E as <- _. done.
    - set_solver. }
  intros [|n] flag u; cbn.
  - intros [= ->]. intros [= ->]. by eapply O.
  - apply (IH y1); [done|set_solver|done].
Qed.

Lemma refusal_is_final s flag u s1 f1 f2 f3 l y' os : handle_update s flag u = (s1, Refused) -> KRestart ∉ l ->
  cl_run (mkclsys s1 f1 f2 f3) l = Some (y', os) ->
  forall n flag' u', l !! n = Some (KUpdate flag' u') -> os !! n <> Some Applied.
Proof. intros H. apply refused_for_ever. by eapply refused_locks. Qed.

(** What changes comes from verified objects of the update, whether it is refused or not. *)
Lemma refused_effects s u s' : handle_update s true u = (s', Refused) ->
  (forall ca v, cl_crv s !! ca = Some v -> cl_crv s' !! ca = Some v) /\
  (forall e, convicted s e -> convicted s' e) /\
  (forall ca d, cl_crv s' !! ca = Some d -> cl_crv s !! ca = Some d \/
     exists g, g ∈ u_revs u /\ g_p0 g = ca /\ verify c g = Accept /\ d = snd (srh_and_dcrv z g) /\
       verify_srh c (fst (srh_and_dcrv z g)) d None (g_period g) = Accept) /\
  (forall k r, cl_sth s' !! k = Some r -> cl_sth s !! k = Some r \/
     exists g x, g ∈ u_sths u /\ k = g_p0 g ++ "@" ++ g_period g /\ verify c g = Accept /\ head_of g = Some x /\ r = sth_root x) /\
  (forall e g, cl_pom s' !! e = Some g -> cl_pom s !! e = Some g \/ ((g ∈ u_accs u \/ g ∈ u_cons u) /\ g_p0 g = e /\ verify c g = Accept)).
Proof.
  intros H. split_and!.
  - intros ca v. by eapply vector_kept.
  - intros e. by eapply conviction_kept.
  - intros ca d D. destruct (vector_from z c _ _ _ _ _ _ _ H D) as [X|(g & A & B & C & E & F)]; [by left|right]. exists g. split_and!; auto.
  - intros k r R. destruct (root_from z c _ _ _ _ _ _ _ H R) as [X|(g & x & A & B & C & E & F)]; [by left|right]. exists g, x. split_and!; auto.
  - intros e g G. destruct (conviction_from z c _ _ _ _ _ _ _ H G) as [X|(A & B & C)]; [by left|right]. split_and!; auto.
Qed.

(** ** Convictions *)
Lemma convicted_kept y l y' os e : cl_run y l = Some (y', os) -> KRestart ∉ l -> convicted (cs_cl y) e -> convicted (cs_cl y') e.
Proof.
  intros H N V. revert H. eapply (run_inv (λ y, convicted (cs_cl y) e)); [|done].
  intros y1 ev y2 o I Y ST. destruct ev as [flag u| |]; [|by injection ST as <- _|done].
  apply update_step in ST as (ST & _). by eapply conviction_kept.
Qed.

Lemma restart_forgets y y' o : cl_step y KRestart = Some (y', o) -> cl_pom (cs_cl y') = ∅.
Proof. cbn. destruct (load_crv _); [|done]. by intros [= <- _]. Qed.

Lemma all_convicted s crt : (forall i, i ∈ relied_on crt -> convicted s (g_signer (li_sth i))) -> check_certificate c s crt = Reject.
Proof.
  intros H. unfold check_certificate, relied_on in *.
  assert (count_faulty c s crt (x_infos (parse_ctng crt)) = Some (length (x_infos (parse_ctng crt)))) as ->.
  { induction (x_infos (parse_ctng crt)) as [|i l IH]; [done|]. cbn. unfold logger_faulty.
    destruct (H i) as [x ->]; [by left|]. rewrite IH; [done|]. intros j J. apply H. by right. }
  by rewrite Nat.eqb_refl.
Qed.

(** The field [signer] is not covered by the signature. *)
Lemma verify_signer g sg : verify c (mkobj (g_app g) (g_period g) (g_type g) sg (g_signers g) (g_s0 g) (g_s1 g) (g_time g) (g_scheme g) (g_p0 g) (g_p1 g) (g_p2 g)) = verify c g.
Proof. by apply verify_core. Qed.

(** Where a conviction comes from. *)
Lemma conviction_origin l y os : lived z c l y os -> careful l -> forall e g, cl_pom (cs_cl y) !! e = Some g ->
  exists u, KUpdate true u ∈ l /\ (g ∈ u_accs u \/ g ∈ u_cons u) /\ g_p0 g = e /\ verify c g = Accept.
Proof.
  intros H C. refine (run_inv (λ y, forall e g, cl_pom (cs_cl y) !! e = Some g -> exists u, KUpdate true u ∈ l /\ (g ∈ u_accs u \/ g ∈ u_cons u) /\ g_p0 g = e /\ verify c g = Accept) l _ clsys_new y os _ H); [|done].
  intros y1 ev y2 o I Y ST e g G. destruct ev as [flag u| |].
  - apply update_step in ST as (ST & _). destruct flag; [|by apply C in I].
    destruct (conviction_from z c _ _ _ _ _ _ _ ST G) as [X|(A & B & D)]; [by apply Y|]. exists u. auto.
  - injection ST as <- _. by apply Y.
  - apply restart_forgets in ST. rewrite ST in G. done.
Qed.

Lemma typed_conviction_origin l y os : lived z c l y os -> careful l -> (forall flag u, KUpdate flag u ∈ l -> proofs_typed u) ->
  forall e g, cl_pom (cs_cl y) !! e = Some g -> (g_type g = ACC_FULL \/ g_type g = CON_INIT) /\ g_p0 g = e /\ verify c g = Accept.
Proof.
  intros H C T e g G. destruct (conviction_origin _ _ _ H C e g G) as (u & U & I & E & V). split_and!; try done.
  destruct (T _ _ U) as [T1 T2]. destruct I as [I|I]; [left; by apply T1|right; by apply T2].
Qed.

(** ** Roots *)
Lemma root_origin l y os : lived z c l y os -> careful l -> KRestart ∉ l -> forall k r, cl_sth (cs_cl y) !! k = Some r ->
  exists u g x, KUpdate true u ∈ l /\ g ∈ u_sths u /\ k = g_p0 g ++ "@" ++ g_period g /\ verify c g = Accept /\ head_of g = Some x /\ r = sth_root x.
Proof.
  intros H C N. refine (run_inv (λ y, forall k r, cl_sth (cs_cl y) !! k = Some r -> exists u g x, KUpdate true u ∈ l /\ g ∈ u_sths u /\ k = g_p0 g ++ "@" ++ g_period g /\ verify c g = Accept /\ head_of g = Some x /\ r = sth_root x) l _ clsys_new y os _ H); [|done].
  intros y1 ev y2 o I Y ST k r R. destruct ev as [flag u| |]; [|injection ST as <- _; by apply Y|done].
  apply update_step in ST as (ST & _). destruct flag; [|by apply C in I].
  destruct (root_from z c _ _ _ _ _ _ _ ST R) as [X|(g & x & A & B & D & E)]; [by apply Y|]. exists u, g, x. split_and!; auto; apply E.
Qed.

(** ** Acceptance *)
Lemma logger_vouches (lc : lconf P) certs t period g root pois n poi d crt s :
  build_tree lc certs t period = Some (g, root, pois) -> certs !! n = Some d -> pois !! n = Some poi -> c_subject d = c_subject crt ->
  verify c g = Accept -> ~ convicted s (lc_signer lc) ->
  cl_sth s !! (lc_signer lc ++ "@" ++ g_period g) = Some (hex_encode root) ->
  vouches c s crt (mkloginfo g poi).
Proof.
  intros B C PO E V N S.
  destruct (built_proofs lc _ _ _ _ _ _ _ _ B C) as (_ & p & P1 & _ & _ & _ & P5). rewrite PO in P1. injection P1 as ->.
  unfold build_tree in B. destruct (new_tree _ _) as [tr|]; [|done]. injection B as <- <- _.
  unfold vouches. cbn [li_sth li_poi]. split; [done|]. split; [done|]. rewrite E in P5.
  destruct (poi_proof p) as [q|] eqn:Q; [|done].
  eexists _, q. split; [unfold head_of, sth_object; cbn [g_p1]; rewrite hex_prefix_encode, sth_roundtrip; reflexivity|].
  cbn [sth_root tree_head]. split; [exact S|]. split; [done|]. by rewrite hex_prefix_encode.
Qed.

(** The head of the logger, threshold-signed in minute [period], was in an update; the certificate carries the head and the proof. *)
Lemma logged_accepted (lc : lconf P) certs t period g root pois n poi d crt s s' flag u l1 f l2 : (forall m, h_sha256 P m <> "") ->
  build_tree lc certs t period = Some (g, root, pois) -> certs !! n = Some d -> pois !! n = Some poi -> c_subject d = c_subject crt ->
  verify c g = Accept -> 10 <= period ->
  handle_update s flag u = (s', Applied) -> u_sths u = (l1 ++ f :: l2)%list ->
  g_p0 f = g_p0 g -> g_p1 f = g_p1 g -> g_period f = pad2 period ->
  (forall x, x ∈ l2 -> g_p0 x ++ "@" ++ g_period x <> g_p0 f ++ "@" ++ g_period f) ->
  ~ convicted s' (lc_signer lc) -> mkloginfo g poi ∈ relied_on crt -> (forall j, j ∈ relied_on crt -> harmless c s' j) ->
  (exists v, cl_crv s' !! c_issuer_cn crt = Some v /\ ~ revoked_in v crt) ->
  check_certificate c s' crt = Accept.
Proof.
  intros Hh B C PO E V L H U E0 E1 EP N NC I HM R. apply verdict_accept; [done|]. split; [done|]. split; [|done].
  exists (mkloginfo g poi). split; [done|]. eapply logger_vouches; try done.
  assert (g = sth_object lc t root (length certs) period) as G.
  { unfold build_tree in B. destruct (new_tree _ _); [|done]. by injection B as <- <- _. }
  assert (g_p0 g = lc_signer lc) as G0 by by rewrite G.
  assert (g_period g = unpadded period) as GP by by rewrite G.
  rewrite GP, (unpadded_pad2 _ L), <- G0, <- E0, <- EP.
  assert (head_of f = Some (tree_head lc t root (length certs))) as HF.
  { unfold head_of. rewrite E1, G. unfold sth_object. cbn [g_p1]. by rewrite hex_prefix_encode, sth_roundtrip. }
  exact (head_recorded z c _ _ _ _ _ _ _ _ H U HF N).
Qed.

(** One digit. *)
Lemma app_end_inj (a b s t : string) : len s = len t -> a ++ s = b ++ t -> s = t.
Proof.
  intros L E. pose proof (f_equal len E) as LE. rewrite !len_app in LE. assert (len a = len b) as LA by lia. clear LE.
  revert b LA E. induction a as [|x a IH]; intros [|y b]; try done. cbn. intros [= LA] [= -> E]. by eapply IH.
Qed.

Lemma pad2_two m : m < 60 -> exists a b, pad2 m = String a (String b "") /\ a <> "@"%char.
Proof. intros L. do 60 (destruct m as [|m]; [by eexists _, _|]). lia. Qed.

Lemma key_digit p q n m : n < 10 -> m < 60 -> p ++ "@" ++ unpadded n <> q ++ "@" ++ pad2 m.
Proof.
  intros L M. destruct (pad2_two m M) as (a & b & -> & NE).
  assert (exists x, unpadded n = String x "") as [x ->] by by do 10 (destruct n as [|n]; [by eexists|]); lia.
  intros H. change (q ++ "@" ++ String a (String b "")) with (q ++ "@" ++ (String a (String b ""))) in H.
  rewrite <- (app_assoc_s q "@") in H. apply app_end_inj in H; [|done]. cbn in H. congruence.
Qed.

(** A client that is only given heads of two-digit periods accepts nothing whose heads have one-digit periods. *)
Lemma one_digit_never l y os crt : (forall m, h_sha256 P m <> "") -> lived z c l y os -> KRestart ∉ l ->
  (forall flag u g, KUpdate flag u ∈ l -> g ∈ u_sths u -> exists m, m < 60 /\ g_period g = pad2 m) ->
  (forall i, i ∈ relied_on crt -> exists n, n < 10 /\ g_period (li_sth i) = unpadded n) ->
  check_certificate c (cs_cl y) crt <> Accept.
Proof.
  intros Hh H N U I A. apply verdict_accept in A as (_ & (i & Ii & _ & _ & x & p & _ & S & _) & _); [|done].
  assert (forall k r, cl_sth (cs_cl y) !! k = Some r -> exists q m, m < 60 /\ k = q ++ "@" ++ pad2 m) as K.
  { refine (run_inv (λ y, forall k r, cl_sth (cs_cl y) !! k = Some r -> exists q m, m < 60 /\ k = q ++ "@" ++ pad2 m) l _ clsys_new y os _ H); [|done].
    intros y1 ev y2 o J Y ST k r R. destruct ev as [flag u| |]; [|injection ST as <- _; by eapply Y|done].
    apply update_step in ST as (ST & _).
    destruct (root_from z c _ _ _ _ _ _ _ ST R) as [X|(g & x' & G1 & -> & _)]; [by eapply Y|].
    destruct (U _ _ _ J G1) as (m & M & ->). by exists (g_p0 g), m. }
  destruct (K _ _ S) as (q & m & M & E). destruct (I i Ii) as (n & L & EN). rewrite EN in E. by apply key_digit in E.
Qed.

(** Updates that do not concern a certificate do not change the verdict. *)
Lemma unrelated_same s flag u s' o crt : handle_update s flag u = (s', o) -> unrelated u crt -> is_Some (cl_crv s !! c_issuer_cn crt) ->
  check_certificate c s' crt = check_certificate c s crt.
Proof.
  intros H U [v V]. unfold check_certificate. rewrite V, (vector_kept z c _ _ _ _ _ _ _ H V).
  assert (count_faulty c s' crt (x_infos (parse_ctng crt)) = count_faulty c s crt (x_infos (parse_ctng crt))) as ->; [|done].
  unfold unrelated, relied_on in U. induction (x_infos (parse_ctng crt)) as [|i l IH]; [done|]. cbn [count_faulty].
  rewrite IH by (intros j J; apply U; by right). clear IH. destruct (U i) as [U1 U2]; [by left|].
  assert (logger_faulty c s' crt i = logger_faulty c s crt i) as ->; [|done]. unfold logger_faulty.
  assert (cl_pom s' !! g_signer (li_sth i) = cl_pom s !! g_signer (li_sth i)) as ->.
  { destruct (handle_pom z c _ _ _ _ _ H) as [-> |[w Q]]; [done|]. eapply poms_other; [|exact Q]. intros g G. apply U2. by rewrite elem_of_app in G. }
  assert (cl_sth s' !! sth_key (li_sth i) = cl_sth s !! sth_key (li_sth i)) as E.
  { destruct (handle_sth z c _ _ _ _ _ H) as [-> |[w Q]]; [done|]. eapply sths_other; [|exact Q]. intros g G. by apply U1. }
  unfold map_get. by rewrite E.
Qed.

(** ** No panic *)
Lemma checked_survives flag u g : identities_ok z c u -> update_lists u g -> checked c flag g <> Panics.
Proof.
  intros [I _] L. destruct flag; [|done]. cbn. intros V. apply verify_panics in V as (_ & str & x & W & X & N).
  destruct (I g str x L) as [k K]; [tauto|done|congruence].
Qed.

Lemma update_survives s flag u : identities_ok z c u -> snd (handle_update s flag u) <> Died.
Proof.
  intros I. destruct (handle_update s flag u) as [s' o] eqn:H. cbn. apply handle_inv in H.
  assert (forall l m m' v, (forall g, g ∈ l -> g ∈ u_revs u) -> take_revs z c flag m l = (m', v) -> v <> Panics) as A.
  { induction l as [|g l IH]; intros m m' v S; cbn [take_revs]; [by intros [= _ <-]|].
    destruct (checked c flag g) eqn:C; [|by intros [= _ <-]|by apply (checked_survives flag u) in C; [|done|right; left; set_solver]].
    destruct (srh_and_dcrv z g) as [srh d] eqn:D. destruct (verify_srh c srh d _ _) eqn:VS; [|by intros [= _ <-]|].
    - apply IH. set_solver.
    - exfalso. apply verify_srh_panics in VS as [_ K]. destruct I as [_ I]. destruct (I g) as (x & X & [k Y]); [set_solver|].
      rewrite D in X. cbn in X. rewrite (K x X) in Y. done. }
  assert (forall l m m' v, (forall g, g ∈ l -> g ∈ u_sths u) -> take_sths c flag m l = (m', v) -> v <> Panics) as B.
  { induction l as [|g l IH]; intros m m' v S; cbn [take_sths]; [by intros [= _ <-]|].
    destruct (checked c flag g) eqn:C; [|by intros [= _ <-]|by apply (checked_survives flag u) in C; [|done|left; set_solver]].
    destruct (head_of g); [|by intros [= _ <-]]. apply IH. set_solver. }
  assert (forall l m m' v, (forall g, g ∈ l -> g ∈ u_accs u \/ g ∈ u_cons u) -> take_poms c flag m l = (m', v) -> v <> Panics) as D.
  { induction l as [|g l IH]; intros m m' v S; cbn [take_poms]; [by intros [= _ <-]|].
    destruct (checked c flag g) eqn:C; [|by intros [= _ <-]|by apply (checked_survives flag u) in C; [|done|right; right; set_solver]].
    apply IH. set_solver. }
  destruct H; try done.
  - apply A in H0; [|done]. by destruct v.
  - apply B in H2; [|done]. by destruct v.
  - apply D in H2; [|intros g; by rewrite elem_of_app]. by destruct v.
Qed.

Lemma check_survives s crt : (forall i, i ∈ relied_on crt -> harmless c s i) -> is_Some (cl_crv s !! c_issuer_cn crt) ->
  check_certificate c s crt <> Panics.
Proof.
  intros H [v V]. unfold check_certificate. destruct (count_total c s crt _ H) as [n HN]. unfold relied_on in HN. rewrite HN, V.
  destruct (Nat.eqb _ _); [done|]. by destruct (bs_test _ _).
Qed.
End histories.

(** A client started for the first time knows nothing and waits for no lock, whatever files there are. *)
Lemma first_start {P : prims} (z : gzip) (c : cconf P) : (exists y, lived z c [] y [] /\ cs_cl y = fresh_client) /\
  (forall y os, lived z c [] y os -> cs_cl y = fresh_client /\ cs_sth_file y = None /\ cs_crv_file y = None /\ cs_pom_file y = None) /\
  forall f1 f2, client_init "NEW" f1 f2 = Some fresh_client.
Proof. split; [by eexists|]. split; [|done]. by intros y os [= <- <-]. Qed.
