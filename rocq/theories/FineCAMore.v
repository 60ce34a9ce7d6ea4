(** More about FineCA.v: identifiers, what is posted, goroutines that run alone. *)
From Verif Require Import Bytes Hex Base64 Json Types Crypto Verify Merkle Cert CertPool CTngExt Clock Bitset Revocation CA FineCA
  SpecCodec SpecCert SpecCA SpecFineCA CertFacts ExtFacts BitsetFacts RevocationFacts CAFacts CARidFacts CAPoiFacts FineCAFacts.
From Verif Require Logger.
Open Scope string_scope.

Section more.
Context {P : prims} (x : x509lib) (z : gzip) (c : caconf P) (cc : cconf P).
Notation step := (cfstep x z c cc).
Notation run := (cfrun x z c cc).

(** ** What is posted was signed *)
Definition holds_signed (o : list cout) (a : cgoro) : Prop :=
  match a with
  | AMake _ _ cs _ | ABump _ _ cs _ _ | AAdd cs => forall f, f ∈ cs -> f ∈ signed o
  | ASend ls crt cs => (forall f, f ∈ crt :: cs -> f ∈ signed o) /\ (forall g, g ∈ ls -> g ∈ cac_loggers c)
  | _ => True
  end.
Lemma holds_more o o' a : holds_signed o a -> holds_signed (o ++ o') a.
Proof.
  assert (K : forall f, f ∈ signed o -> f ∈ signed (o ++ o')) by (intros f Hf; rewrite signed_app; apply elem_of_app; by left).
  destruct a; cbn [holds_signed]; try done; naive_solver.
Qed.

Lemma posted_gstep o s a m l : holds_signed o a -> let '(s', a', o') := cgstep x z c s a m l in
  (forall b, a' = Some b -> holds_signed (o ++ o') b) /\ (forall g crt, CMsg (PrecertTo g crt) ∈ o' -> g ∈ cac_loggers c /\ crt ∈ signed o).
Proof.
  assert (Nil : forall g crt, CMsg (PrecertTo g crt) ∈ ([] : list cout) -> g ∈ cac_loggers c /\ crt ∈ signed o) by (intros g crt H; by apply elem_of_nil in H).
  destruct a as [ds|ds|off i cs [|d ds]|off i cs crt ds|[|crt cs]|[|g ls] crt cs| | |p|p g|p g fk|p g fk|p fk| | |q|i|k crt| |n]; cbn [cgstep holds_signed]; rewrite ?app_nil_r; intros H;
    try (split; [by intros b [= <-]|exact Nil]).
  - split; [|exact Nil]. intros b [= <-]. cbn [holds_signed]. intros f Hf. by apply elem_of_nil in Hf.
  - split.
    + intros b [= <-]. cbn [holds_signed]. rewrite signed_app. intros f [Hf|Hf]%elem_of_app; apply elem_of_app; [left; by apply H|right]. exact Hf.
    + intros g crt' Hf. by apply elem_of_list_singleton in Hf.
  - split; [|exact Nil]. intros b [= <-]. cbn [holds_signed]. intros f Hf. apply H. by right.
  - split.
    + intros b [= <-]. cbn [holds_signed]. rewrite signed_app. cbn [signed]. split; [intros f Hf; apply elem_of_app; left; by apply H|]. intros g' Hg. apply H. by right.
    + intros g' crt' Hf. apply elem_of_list_singleton in Hf. injection Hf as -> ->. split; apply H; by left.
  - destruct (get_by_ski _ _); (split; [by intros b [= <-]|exact Nil]).
  - split; [done|]. intros g crt Hf. by apply elem_of_list_singleton in Hf.
Qed.

Lemma posted_run y0 l : fc_go y0 = [] -> (forall a, a ∈ fc_go (fst (run y0 l)) -> holds_signed (snd (run y0 l)) a) /\
  (forall g crt, CMsg (PrecertTo g crt) ∈ snd (run y0 l) -> g ∈ cac_loggers c /\ crt ∈ signed (snd (run y0 l))).
Proof.
  intros G0. induction l as [|e l [I1 I2]] using rev_ind.
  - cbn. rewrite G0. split; intros; exfalso; by eapply elem_of_nil.
  - rewrite run_snoc. cbn [fst snd]. destruct (run y0 l) as [y o]. cbn [fst snd] in *.
    assert (Old : forall g crt, CMsg (PrecertTo g crt) ∈ o -> g ∈ cac_loggers c /\ crt ∈ signed (o ++ snd (step y e))).
    { intros g crt Hf. destruct (I2 g crt Hf). split; [done|]. rewrite signed_app. apply elem_of_app. by left. }
    assert (Quiet : snd (step y e) = [] -> forall a0, (forall a, a ∈ fc_go (fst (step y e)) -> a ∈ fc_go y \/ a = a0) -> holds_signed o a0 ->
       (forall a, a ∈ fc_go (fst (step y e)) -> holds_signed (o ++ snd (step y e)) a) /\
       (forall g crt, CMsg (PrecertTo g crt) ∈ (o ++ snd (step y e))%list -> g ∈ cac_loggers c /\ crt ∈ signed (o ++ snd (step y e)))).
    { intros E a0 Hg H0. split.
      - intros a Ha. rewrite E, app_nil_r. destruct (Hg a Ha) as [Hb| ->]; auto.
      - intros g crt [Hf|Hf]%elem_of_app; [by apply Old|]. rewrite E in Hf. by apply elem_of_nil in Hf. }
    destruct e as [ds|g|q| |i|n m ps].
    + apply (Quiet eq_refl (AWipe ds)); [|done]. cbn. intros a [Ha|Ha]%elem_of_app; [by left|right]. by apply elem_of_list_singleton in Ha.
    + apply (Quiet eq_refl QCount); [|done]. cbn. auto.
    + apply (Quiet eq_refl (PHead q)); [|done]. cbn. intros a [Ha|Ha]%elem_of_app; [by left|right]. by apply elem_of_list_singleton in Ha.
    + apply (Quiet eq_refl QCount); [|done]. cbn. intros a [Ha|Ha]%elem_of_app; [by left|right]. by apply elem_of_list_singleton in Ha.
    + apply (Quiet eq_refl QCount); [|done]. cbn. auto.
    + cbn [cfstep] in *. destruct (fc_go y !! n) as [a|] eqn:G.
      2: { apply (Quiet eq_refl QCount); [|done]. cbn. auto. }
      clear Quiet. pose proof (posted_gstep o (fc_st y) a m ps (I1 a (elem_of_list_lookup_2 _ _ _ G))) as K.
      destruct (cgstep x z c (fc_st y) a m ps) as [[s a'] o']. destruct K as [K1 K2]. cbn [fst snd fc_go] in *. split.
      * intros b Hb. destruct a' as [a'|]; [apply insert_in in Hb as [->|Hb]|apply delete_in in Hb]; [by apply K1|apply holds_more; auto..].
      * intros g crt [Hf|Hf]%elem_of_app; [by apply Old|]. destruct (K2 g crt Hf). split; [done|]. rewrite signed_app. apply elem_of_app. by left.
Qed.

(** ** Identifiers *)
Section rids.
Context (Hstd : std_ok x) (ty k : Z) (d1 d2 : draw).
Notation y0 := (fc_init x c ty k d1 d2).

Definition busy (l : list cgoro) : nat := length (List.filter issuing l).
Lemma busy_app l1 l2 : busy (l1 ++ l2) = busy l1 + busy l2.
Proof. unfold busy. by rewrite List.filter_app, app_length. Qed.
Lemma busy_cons a l : busy (a :: l) = (if issuing a then 1 else 0) + busy l.
Proof. unfold busy. cbn [List.filter]. by destruct (issuing a). Qed.
Lemma busy_none l : (forall a, a ∈ l -> issuing a = false) -> busy l = 0.
Proof. induction l as [|a l IH]; intros H; [done|]. rewrite busy_cons, (H a) by (by left). apply IH. intros b Hb. apply H. by right. Qed.
Lemma busy_in l a : a ∈ l -> issuing a = true -> 1 <= busy l.
Proof. intros (l1 & l2 & ->)%elem_of_list_split H. rewrite busy_app, busy_cons, H. lia. Qed.

Record rid_inv (y : fca) (o : list cout) : Prop := {
  r_one : busy (fc_go y) <= 1;
  r_count : a_counter (fc_st y) = (1 + Z.of_nat (length (signed o)))%Z;
  r_next : forall off i cs crt ds, ABump off i cs crt ds ∈ fc_go y -> (a_counter (fc_st y) <= int64_max)%Z -> cert_rid crt = a_counter (fc_st y);
  r_rids : (Z.of_nat (length (signed o)) <= int64_max)%Z -> map cert_rid (signed o) = seqZ 1 (Z.of_nat (length (signed o)))
}.

Lemma rid_gstep s a m ps : let '(s', a', o') := cgstep x z c s a m ps in
  (match a' with Some b => if issuing b then issuing a = true else True | None => True end) /\
  match a with
  | ABump off i cs crt ds => a_counter s' = (a_counter s + 1)%Z /\ signed o' = [crt] /\ (exists b, a' = Some b /\ forall off i cs crt ds, b <> ABump off i cs crt ds)
  | _ => a_counter s' = a_counter s /\ signed o' = [] /\ (forall off i cs crt ds, a' = Some (ABump off i cs crt ds) -> (0 <= a_counter s <= int64_max)%Z -> cert_rid crt = a_counter s)
  end.
Proof using Hstd.
  destruct a as [ds|ds|off i cs [|d ds]|off i cs crt ds|[|crt cs]|[|g ls] crt cs| | |p|p g|p g fk|p g fk|p fk| | |q|i|k' crt| |n]; cbn [cgstep]; try (by split_and!).
  - split_and!; [done..|]. intros off' i' cs' crt ds' [= _ _ _ <- _] H. unfold cert_rid. erewrite parse_signed by done. rewrite decode_encode; [done|]. by apply ext_ok_rid.
  - split_and!; [done..|]. eexists. split; [done|]. by intros.
  - destruct (get_by_ski _ _); by split_and!.
  - destruct (Z.eqb _ 0); by split_and!.
Qed.

Lemma quiet_rid y o y' : rid_inv y o -> a_counter (fc_st y') = a_counter (fc_st y) -> busy (fc_go y') <= 1 ->
  (forall a, a ∈ fc_go y' -> a ∈ fc_go y \/ (forall off i cs crt ds, a <> ABump off i cs crt ds)) -> rid_inv y' (o ++ []).
Proof.
  intros [I1 I2 I3 I4] E B H. rewrite app_nil_r. split; [done|congruence| |done]. intros off i cs crt ds Hb. rewrite E. intros L. destruct (H _ Hb) as [K|K]; [by eapply I3|by edestruct K].
Qed.

Lemma rid_run l : one_issuer x z c cc y0 l -> rid_inv (fst (run y0 l)) (snd (run y0 l)).
Proof using Hstd.
  induction l as [|e l IH] using rev_ind; intros One.
  - split; [cbn; lia|done| |done]. intros off i cs crt ds H. by apply elem_of_nil in H.
  - assert (One' : one_issuer x z c cc y0 l). { intros l1 ds l2 a -> H. eapply (One l1 ds (l2 ++ [e])%list); [by rewrite <- app_assoc|done]. }
    specialize (IH One'). assert (T : forall ds, e = FTick ds -> busy (fc_go (fst (run y0 l))) = 0).
    { intros ds ->. apply busy_none. intros a Ha. eapply (One l ds []); [done|exact Ha]. }
    clear One One'. rewrite run_snoc. cbn [fst snd]. destruct (run y0 l) as [y o]. cbn [fst snd] in *. destruct IH as [I1 I2 I3 I4].
    destruct e as [ds|g|q| |i|n m ps]; cbn [cfstep fst snd].
    + apply (quiet_rid y); [by split|done| |].
      * cbn [fc_go]. rewrite busy_app, (T ds eq_refl). cbn. lia.
      * cbn [fc_go]. intros a [Ha|Ha]%elem_of_app; [by left|right]. by apply elem_of_list_singleton in Ha as ->.
    + apply (quiet_rid y); [by split| |done|cbn; auto]. cbn [fc_st]. by destruct (sth_frame cc (fc_st y) g) as (_ & _ & -> & _).
    + apply (quiet_rid y); [by split|done| |].
      * cbn [fc_go]. rewrite busy_app. cbn. lia.
      * cbn [fc_go]. intros a [Ha|Ha]%elem_of_app; [by left|right]. by apply elem_of_list_singleton in Ha as ->.
    + apply (quiet_rid y); [by split|done| |].
      * cbn [fc_go]. rewrite busy_app. cbn. lia.
      * cbn [fc_go]. intros a [Ha|Ha]%elem_of_app; [by left|right]. by apply elem_of_list_singleton in Ha as ->.
    + apply (quiet_rid y); [by split|done|done|cbn; auto].
    + destruct (fc_go y !! n) as [a|] eqn:G; [|cbn [fst snd]; apply (quiet_rid y); [by split|done|done|cbn; auto]].
      pose proof (rid_gstep (fc_st y) a m ps) as K. destruct (cgstep x z c (fc_st y) a m ps) as [[s a'] o']. destruct K as [K0 K]. cbn [fst snd].
      pose proof (take_drop_middle _ _ _ G) as Sp. assert (Ln : n < length (fc_go y)) by (by eapply lookup_lt_Some).
      set (go' := match a' with Some b => <[n := b]> (fc_go y) | None => delete n (fc_go y) end).
      assert (Eg : go' = (take n (fc_go y) ++ match a' with Some b => [b] | None => [] end ++ drop (S n) (fc_go y))%list).
      { unfold go'. destruct a' as [b|]; [by rewrite insert_take_drop|by rewrite delete_take_drop]. }
      assert (Eb : busy (fc_go y) = busy (take n (fc_go y)) + ((if issuing a then 1 else 0) + busy (drop (S n) (fc_go y)))) by (by rewrite <- Sp at 1; rewrite busy_app, busy_cons).
      assert (Hb : busy go' <= 1).
      { rewrite Eg, !busy_app. destruct a' as [b|]; [rewrite busy_cons; destruct (issuing b); [rewrite K0 in Eb|]; cbn in *; lia|cbn; lia]. }
      assert (Ho : forall b, b ∈ go' -> a' = Some b \/ b ∈ take n (fc_go y) \/ b ∈ drop (S n) (fc_go y)).
      { intros b. rewrite Eg, !elem_of_app. intros [H|[H|H]]; auto. destruct a' as [b'|]; [apply elem_of_list_singleton in H as ->; auto|by apply elem_of_nil in H]. }
      assert (Hin : forall b, b ∈ take n (fc_go y) \/ b ∈ drop (S n) (fc_go y) -> b ∈ fc_go y).
      { intros b H. rewrite <- Sp. apply elem_of_app. destruct H; [by left|right; by right]. }
      destruct (match a with ABump _ _ _ _ _ => true | _ => false end) eqn:Bump.
      * destruct a as [| | |off i cs crt ds| | | | | | | | | | | | | | | |]; try done. destruct K as (K1 & K2 & b & -> & K3).
        split; cbn [fc_st fc_go].
        -- exact Hb.
        -- rewrite signed_app, app_length, K2, K1, I2. cbn. lia.
        -- intros off' i' cs' crt' ds' H L. exfalso. destruct (Ho _ H) as [H'|[H'|H']]; [injection H' as H'; by eapply K3|..];
             (assert (1 <= busy (take n (fc_go y)) + busy (drop (S n) (fc_go y))) by (pose proof (busy_in _ _ H' eq_refl); lia)); cbn [issuing] in Eb; lia.
        -- rewrite signed_app, app_length, K2, map_app. cbn [length map]. intros L. rewrite Nat2Z.inj_add, seqZ_app by lia. rewrite I4 by lia. f_equal.
           rewrite (I3 off i cs crt ds); [|by eapply elem_of_list_lookup_2|lia]. rewrite I2. cbn [seqZ]. done.
      * assert (K' : a_counter s = a_counter (fc_st y) /\ signed o' = [] /\
          (forall off i cs crt ds, a' = Some (ABump off i cs crt ds) -> (0 <= a_counter (fc_st y) <= int64_max)%Z -> cert_rid crt = a_counter (fc_st y))) by (by destruct a).
        clear K. destruct K' as (K1 & K2 & K3). split; cbn [fc_st fc_go].
        -- exact Hb.
        -- by rewrite signed_app, K2, app_nil_r, K1.
        -- intros off i cs crt ds H L. rewrite K1 in *. destruct (Ho _ H) as [H'|H']; [eapply K3; [done|lia]|]. eapply I3; [by apply Hin|done].
        -- by rewrite signed_app, K2, app_nil_r.
Qed.

Lemma rids_unique l : one_issuer x z c cc y0 l -> (Z.of_nat (length (signed (snd (run y0 l)))) <= int64_max)%Z ->
  NoDup (map cert_rid (signed (snd (run y0 l)))) /\ map cert_rid (signed (snd (run y0 l))) = map (λ n, Z.of_nat n + 1)%Z (seq 0 (length (signed (snd (run y0 l))))).
Proof using Hstd.
  intros One L. assert (E := r_rids _ _ (rid_run l One) L). rewrite E. split; [apply NoDup_seqZ|].
  unfold seqZ. rewrite Nat2Z.id. apply list_fmap_ext. intros i n _. lia.
Qed.
End rids.

(** Two tasks at the same time: one identifier, one name, two certificates. *)
Definition both (a b : draw) : list cfev :=
  (FTick [a] :: FTick [b] :: [FRun 0 7 []; FRun 0 7 []; FRun 0 7 []; FRun 1 7 []; FRun 1 7 []; FRun 1 7 []; FRun 0 7 []; FRun 1 7 []])%list.
Lemma both_collide (Hstd : std_ok x) ty k d1 d2 a b : d_pub a <> d_pub b ->
  exists f g, signed (snd (run (fc_init x c ty k d1 d2) (both a b))) = [f; g] /\ cert_rid f = cert_rid g /\ c_subject f = c_subject g /\ c_pub f <> c_pub g.
Proof.
  intros Hd. eexists _, _. split; [reflexivity|]. split_and!; [|done|exact Hd].
  unfold cert_rid. erewrite !parse_signed by done. done.
Qed.

(** ** Without overlap *)
Section alone.
Context (m : nat) (ps : list N).
Notation st := (FRun 0 m ps).

Lemma step_go s a l : run (mkfc s [a]) (st :: l) =
  let '(s1, a', o) := cgstep x z c s a m ps in
  let '(y2, o2) := run (mkfc s1 (match a' with Some b => [b] | None => [] end)) l in (y2, (o ++ o2)%list).
Proof. cbn [cfrun cfstep fc_go fc_st lookup list_lookup]. by destruct (cgstep x z c s a m ps) as [[s1 [b|]] o]. Qed.

Lemma end_alone s : run (mkfc s [AMass]) (repeat st 9) = (mkfc (ca_end_period z c s ps m) [], []).
Proof. cbn [repeat]. rewrite !step_go. cbn [cgstep]. reflexivity. Qed.

Lemma poi_alone s q : run (mkfc s []) (FProof q :: repeat st 3) = (mkfc (receive_poi s q) [], []).
Proof.
  cbn [repeat]. change (run (mkfc s []) (FProof q :: [st; st; st])) with (let '(y2, o2) := run (mkfc s [PHead q]) [st; st; st] in (y2, ([] ++ o2)%list)).
  rewrite step_go. cbn [cgstep]. rewrite step_go. cbn [cgstep li_poi]. unfold receive_poi. destruct (get_by_ski (a_pool s) (poi_ski q)) as [crt|]; reflexivity.
Qed.

Lemma ask_alone s : run (mkfc s []) (FAsk :: repeat st 2) = (mkfc (fst (request_rev s m)) [], [CReply m (snd (request_rev s m))]).
Proof.
  cbn [repeat]. change (run (mkfc s []) (FAsk :: [st; st])) with (let '(y2, o2) := run (mkfc s [QCount]) [st; st] in (y2, ([] ++ o2)%list)).
  rewrite step_go. cbn [cgstep]. rewrite step_go. cbn [cgstep cfrun app]. unfold request_rev. destruct (Z.eqb (a_type s) 0) eqn:E; cbn [fst snd set_a_count a_type a_count a_interval a_rev a_fake a_online]; by rewrite E.
Qed.

Lemma send_alone ls : forall s crt cs n, run (mkfc s [ASend ls crt cs]) (repeat st (length ls + S n)) =
  let '(y2, o2) := run (mkfc s [AAdd cs]) (repeat st n) in (y2, (map (λ l, CMsg (PrecertTo l crt)) ls ++ o2)%list).
Proof.
  induction ls as [|g ls IH]; intros s crt cs n; cbn [length repeat plus]; rewrite step_go; cbn [cgstep]; [done|].
  rewrite IH. by destruct (run (mkfc s [AAdd cs]) (repeat st n)) as [y2 o2].
Qed.

Lemma add_alone cs : forall s, exists n, run (mkfc s [AAdd cs]) (repeat st n) =
  (mkfc (ca_end_period z c (set_a_pool s (fold_left add_cert (map precert_of cs) (a_pool s))) ps m) [],
   map CMsg (concat (map (λ crt, map (λ l, PrecertTo l crt) (cac_loggers c)) cs))).
Proof.
  induction cs as [|crt cs IH]; intros s.
  - exists 10. change (repeat st 10) with (st :: repeat st 9). rewrite step_go. cbn [cgstep]. rewrite end_alone. by destruct s.
  - destruct (IH (set_a_pool s (add_cert (a_pool s) (precert_of crt)))) as [n H]. exists (S (length (cac_loggers c) + S n)). cbn [repeat]. rewrite step_go. cbn [cgstep].
    rewrite send_alone, H. cbn [app map concat fold_left set_a_pool a_pool]. f_equal. rewrite map_app. f_equal. by rewrite map_map.
Qed.

Lemma make_alone ds : forall s off i cs, exists n, run (mkfc s [AMake off i cs ds]) (repeat st n) =
  let certs := generate_n x c (a_root s) off i (a_counter s) ds in
  let s' := set_a_counter s (a_counter s + Z.of_nat (length ds)) in
  (mkfc (ca_end_period z c (set_a_pool s' (fold_left add_cert (map precert_of (cs ++ certs)) (a_pool s))) ps m) [],
   (map CSigned certs ++ map CMsg (concat (map (λ crt, map (λ l, PrecertTo l crt) (cac_loggers c)) (cs ++ certs))))%list).
Proof.
  induction ds as [|d ds IH]; intros s off i cs.
  - destruct (add_alone cs s) as [n H]. exists (S n). cbn [repeat]. rewrite step_go. cbn [cgstep]. rewrite H. cbn [generate_n app map length]. rewrite app_nil_r, Z.add_0_r. by destruct s.
  - destruct (IH (set_a_counter s (a_counter s + 1)) off (i + 1)%Z (cs ++ [sign_certificate x (cac_key c) (unsigned_precert (cac_signer c) ("Testing Dummy " ++ itoa (i + off)) (a_counter s) d) (a_root s) (d_pub d)])%list) as [n H].
    exists (S (S n)). cbn [repeat]. rewrite step_go. cbn [cgstep]. rewrite step_go. cbn [cgstep]. rewrite H. cbn [generate_n app map length set_a_counter a_root a_counter a_pool].
    rewrite <- app_assoc. cbn [app]. replace (a_counter s + 1 + Z.of_nat (length ds))%Z with (a_counter s + Z.of_nat (S (length ds)))%Z by lia. done.
Qed.

Lemma task_alone s ds : exists n, run (mkfc s []) (FTick ds :: repeat st n) =
  let '(s', certs, ms) := issue x c s ds in (mkfc (ca_end_period z c s' ps m) [], (map CSigned certs ++ map CMsg ms)%list).
Proof.
  destruct (make_alone ds (set_a_sths s ∅) (a_counter s) 0 []) as [n H]. exists (S (S n)).
  change (run (mkfc s []) (FTick ds :: repeat st (S (S n)))) with (let '(y2, o2) := run (mkfc s [AWipe ds]) (st :: st :: repeat st n) in (y2, ([] ++ o2)%list)).
  rewrite step_go. cbn [cgstep]. rewrite step_go. cbn [cgstep]. cbn [set_a_sths a_counter] in *. rewrite H. done.
Qed.
End alone.

(** ** Two tasks of one minute *)
Section lost.
Context (Hz : gzip_ok z).
Definition empty_delta (p : string) (g : gobj) : Prop := snd (srh_and_dcrv z g) = bs_new crv_size.

Lemma later_crv y e : v_pre (a_crv (fc_st y)) = None -> v_pre (a_crv (fc_st (fst (step y e)))) = None.
Proof.
  intros V. destruct e as [ds|g|q| |i|n m l]; cbn [cfstep fst fc_st]; try done.
  - by destruct (sth_frame cc (fc_st y) g) as (-> & _).
  - destruct (fc_go y !! n) as [a|]; [|done].
    destruct a as [ds|ds|off i cs [|d ds]|off i cs crt ds|[|crt cs]|[|g ls] crt cs| | |p|p g|p g fk|p g fk|p fk| | |q|i|k crt| |n']; cbn [cgstep fst fc_st]; try done.
    + cbn [mass a_crv]. destruct (a_fresh _); [|done]. by destruct (mass_cur l (a_crv (fc_st y))) as [_ ->].
    + by destruct (get_by_ski _ _).
    + by destruct (Z.eqb _ 0).
Qed.

Lemma later_run l : forall y, v_pre (a_crv (fc_st y)) = None -> objs empty_delta (λ _ _, True) y ->
  v_pre (a_crv (fc_st (fst (run y l)))) = None /\ objs empty_delta (λ _ _, True) (fst (run y l)).
Proof using Hz.
  induction l as [|e l IH] using rev_ind; intros y V O; [done|]. rewrite run_snoc. cbn [fst]. destruct (IH y V O) as [V1 O1]. split; [by apply later_crv|].
  apply objs_step; [|done|done]. intros p. unfold empty_delta. rewrite generated_decodes; [|done|]; cbn [revocation_delta]; unfold crv_delta; rewrite V1; [done|apply cur_ok_ok, cur_ok_new].
Qed.
End lost.
End more.
