(** Facts about clients. *)
From Verif Require Import Bytes Hex Base64 Base64Facts Json JsonFacts Types Crypto Verify SpecVerify VerifyFacts CodecFacts WireFacts SpecCodec Merkle Cert CTngExt ExtFacts
  Bitset BitsetFacts Revocation Monitor MonitorMore SpecCert Clock Logger LoggerFacts Client SpecClient.
Open Scope string_scope.

Lemma hex_prefix_encode s : hex_prefix (hex_encode s) = s.
Proof.
  induction s as [|[b0 b1 b2 b3 b4 b5 b6 b7] s IH]; [done|].
  cbn [hex_encode hex_prefix]. by rewrite !hex_val_digit, IH.
Qed.

Lemma climb_nonempty (h : string -> string) : (forall m, h m <> "") -> forall sibs r path, r <> "" -> climb h r sibs path <> "".
Proof. intros H sibs. induction sibs as [|x sibs IH]; intros r path R; cbn; [done|]. apply IH. destruct (N.odd path); apply H. Qed.

Section facts.
Context {P : prims} (z : gzip) (c : cconf P).
Implicit Types (s : clst) (crt : cert) (i : loginfo) (u : update) (g : gobj).
Notation take_revs := (take_revs z c).
Notation take_sths := (take_sths c).
Notation take_poms := (take_poms c).
Notation handle_update := (handle_update z c).

(** ** The verdict *)

Lemma faulty_none s crt i : logger_faulty c s crt i = None <-> ~ harmless c s i.
Proof.
  unfold logger_faulty, harmless, convicted. destruct (cl_pom s !! _) as [x|] eqn:E.
  - split; [done|]. intros H. destruct H. left. by eexists.
  - destruct (verify c (li_sth i)) eqn:V.
    + split; [|intros H; destruct H; by right]. destruct (head_of _); [|done]. by destruct (negb _).
    + split; [done|]. intros H. destruct H. by right.
    + split; [|done]. intros _ [[? ?]|?]; done.
Qed.

Lemma faulty_false s crt i : (forall m, h_sha256 P m <> "") -> logger_faulty c s crt i = Some false <-> vouches c s crt i.
Proof.
  intros Hh. unfold logger_faulty, vouches, convicted, sth_key. destruct (cl_pom s !! _) as [x|] eqn:E.
  - split; [done|]. intros (H & _). destruct H. by eexists.
  - assert (~ is_Some (None : option gobj)) as N by by intros [? ?].
    destruct (verify c (li_sth i)) eqn:V; [|split; [done|by intros (_ & ? & _)]..].
    destruct (head_of (li_sth i)) as [x|] eqn:X; [|split; [done|by intros (_ & _ & ? & ? & ? & _)]].
    destruct (String.eqb_spec (map_get (cl_sth s) (g_p0 (li_sth i) ++ "@" ++ g_period (li_sth i))) (sth_root x)) as [R|R]; cbn [negb].
    + rewrite R. split.
      * intros H. injection H as H. apply negb_false_iff in H. split_and!; try done.
        destruct (poi_proof (li_poi i)) as [p|] eqn:PF; [|done]. exists x, p. split_and!; try done.
        unfold map_get in R. destruct (cl_sth s !! _) as [r|]; [by rewrite R|].
        exfalso. rewrite <- R in H. cbn in H. apply String.eqb_eq in H. revert H. by apply climb_nonempty.
      * intros (_ & _ & x' & p & X' & S' & PF & VP). injection X' as <-. rewrite PF. cbn [tbs_certificate c_subject]. by rewrite VP.
    + split; [done|]. intros (_ & _ & x' & p & X' & S' & _). injection X' as <-. destruct R. unfold map_get. by rewrite S'.
Qed.

Lemma count_none s crt l : count_faulty c s crt l = None <-> exists i, i ∈ l /\ logger_faulty c s crt i = None.
Proof.
  induction l as [|i l IH]; cbn.
  - split; [done|]. intros (i & H & _). by apply elem_of_nil in H.
  - destruct (logger_faulty c s crt i) as [b|] eqn:E.
    + destruct (count_faulty c s crt l) as [n|].
      * split; [done|]. intros (j & [-> |H]%elem_of_cons & N); [congruence|]. enough (Some n = None) by done. apply IH. eauto.
      * split; [|done]. intros _. destruct (proj1 IH eq_refl) as (j & H & N). exists j. split; [by right|done].
    + split; [|done]. intros _. exists i. split; [by left|done].
Qed.

Lemma count_some s crt l n : count_faulty c s crt l = Some n ->
  n <= length l /\ (n <> length l <-> exists i, i ∈ l /\ logger_faulty c s crt i = Some false).
Proof.
  revert n. induction l as [|i l IH]; intros n; cbn.
  - intros H. injection H as <-. split; [done|]. split; [done|]. intros (i & H & _). by apply elem_of_nil in H.
  - destruct (logger_faulty c s crt i) as [b|] eqn:E; [|done]. destruct (count_faulty c s crt l) as [k|]; [|done].
    intros H. injection H as <-. destruct (IH _ eq_refl) as [L I]. destruct b.
    + split; [lia|]. split.
      * intros H. destruct (proj1 I) as (j & J1 & J2); [lia|]. exists j. split; [by right|done].
      * intros (j & [-> |J]%elem_of_cons & F); [congruence|]. enough (k <> length l) by lia. apply I. eauto.
    + split; [lia|]. split; [|lia]. intros _. exists i. split; [by left|done].
Qed.

Lemma count_total s crt l : (forall i, i ∈ l -> harmless c s i) -> exists n, count_faulty c s crt l = Some n.
Proof.
  intros H. destruct (count_faulty c s crt l) as [n|] eqn:E; [by exists n|].
  apply count_none in E as (i & I & F). apply faulty_none in F. by destruct F; apply H.
Qed.

Lemma verdict_accept s crt : (forall m, h_sha256 P m <> "") -> check_certificate c s crt = Accept <->
  (forall i, i ∈ relied_on crt -> harmless c s i) /\
  (exists i, i ∈ relied_on crt /\ vouches c s crt i) /\
  exists v, cl_crv s !! c_issuer_cn crt = Some v /\ ~ revoked_in v crt.
Proof.
  intros Hh. unfold check_certificate, relied_on, revoked_in. destruct (count_faulty c s crt _) as [n|] eqn:E.
  - assert (forall i, i ∈ x_infos (parse_ctng crt) -> harmless c s i) as HM.
    { intros i I. destruct (logger_faulty c s crt i) eqn:F.
      - destruct (cl_pom s !! g_signer (li_sth i)) eqn:Q; [left; by eexists|]. right. intros V.
        unfold logger_faulty in F. by rewrite Q, V in F.
      - assert (count_faulty c s crt (x_infos (parse_ctng crt)) = None) as X by (apply count_none; eauto). congruence. }
    destruct (count_some _ _ _ _ E) as [L I].
    assert ((n <> length (x_infos (parse_ctng crt))) <-> exists i, i ∈ x_infos (parse_ctng crt) /\ vouches c s crt i) as I'.
    { rewrite I. split; intros (i & J & F); exists i; (split; [done|]); by apply faulty_false. }
    destruct (Nat.eqb_spec n (length (x_infos (parse_ctng crt)))) as [N|N].
    + split; [done|]. intros (_ & G & _). by apply I' in G.
    + apply I' in N. destruct (cl_crv s !! c_issuer_cn crt) as [v|].
      * destruct (bs_test v _) eqn:T.
        -- split; [done|]. intros (_ & _ & v' & V' & R). injection V' as <-. apply bs_test_true in T. done.
        -- split; [|done]. intros _. split_and!; try done. exists v. split; [done|]. rewrite <- bs_test_true. by rewrite T.
      * split; [done|]. intros (_ & _ & v' & V' & _). done.
  - split; [done|]. intros (HM & _). destruct (count_total s crt _ HM) as [n N]. congruence.
Qed.

Lemma verdict_reject s crt : (forall m, h_sha256 P m <> "") -> check_certificate c s crt = Reject <->
  (forall i, i ∈ relied_on crt -> harmless c s i) /\
  ((forall i, i ∈ relied_on crt -> ~ vouches c s crt i) \/ exists v, cl_crv s !! c_issuer_cn crt = Some v /\ revoked_in v crt).
Proof.
  intros Hh. unfold check_certificate, relied_on, revoked_in. destruct (count_faulty c s crt _) as [n|] eqn:E.
  - assert (forall i, i ∈ x_infos (parse_ctng crt) -> harmless c s i) as HM.
    { intros i I. destruct (logger_faulty c s crt i) eqn:F.
      - destruct (cl_pom s !! g_signer (li_sth i)) eqn:Q; [left; by eexists|]. right. intros V.
        unfold logger_faulty in F. by rewrite Q, V in F.
      - assert (count_faulty c s crt (x_infos (parse_ctng crt)) = None) as X by (apply count_none; eauto). congruence. }
    destruct (count_some _ _ _ _ E) as [L I].
    assert ((n <> length (x_infos (parse_ctng crt))) <-> exists i, i ∈ x_infos (parse_ctng crt) /\ vouches c s crt i) as I'.
    { rewrite I. split; intros (i & J & F); exists i; (split; [done|]); by apply faulty_false. }
    destruct (Nat.eqb_spec n (length (x_infos (parse_ctng crt)))) as [N|N].
    + split; [|done]. intros _. split; [done|]. left. intros i J V. by apply (proj2 I'); [by exists i|].
    + apply I' in N as (i & J & V). destruct (cl_crv s !! c_issuer_cn crt) as [v|].
      * destruct (bs_test v _) eqn:T.
        -- split; [|done]. intros _. split; [done|]. right. exists v. split; [done|]. by apply bs_test_true.
        -- split; [done|]. intros (_ & [G|(v' & V' & R)]); [by destruct (G i J)|]. injection V' as <-. apply bs_test_true in R. congruence.
      * split; [done|]. intros (_ & [G|(v' & V' & R)]); [by destruct (G i J)|done].
  - split; [done|]. intros (HM & _). destruct (count_total s crt _ HM) as [n N]. congruence.
Qed.

(** ** The three loops *)

Lemma revs_keep flag l : forall m m' v ca d, take_revs flag m l = (m', v) -> m !! ca = Some d -> m' !! ca = Some d.
Proof.
  induction l as [|g l IH]; intros m m' v ca d; cbn [Client.take_revs]; [by intros [= <- _]|].
  destruct (checked c flag g); [|by intros [= <- _]..]. destruct (srh_and_dcrv z g) as [srh d'].
  destruct (verify_srh _ _ _ _ _); [|by intros [= <- _]..].
  intros H M. eapply IH; [exact H|]. destruct (m !! g_p0 g) eqn:E; [done|].
  rewrite lookup_insert_ne; [done|]. intros X. by rewrite X, M in E.
Qed.

Lemma revs_from flag l : forall m m' v ca d, take_revs flag m l = (m', v) -> m' !! ca = Some d ->
  m !! ca = Some d \/ exists g, g ∈ l /\ g_p0 g = ca /\ d = snd (srh_and_dcrv z g) /\ checked c flag g = Accept /\
    verify_srh c (fst (srh_and_dcrv z g)) d None (g_period g) = Accept.
Proof.
  induction l as [|g l IH]; intros m m' v ca d; cbn [Client.take_revs]; [intros [= <- _]; by left|].
  destruct (checked c flag g) eqn:C; [|intros [= <- _]; by left..]. destruct (srh_and_dcrv z g) as [srh d'] eqn:D.
  destruct (verify_srh c srh d' (m !! g_p0 g) (g_period g)) eqn:VS; [|intros [= <- _]; by left..].
  intros H M. destruct (IH _ _ _ _ _ H M) as [X|(x & I & J)].
  - destruct (m !! g_p0 g) eqn:E; [by left|]. apply lookup_insert_Some in X as [[<- <-]|[_ X]]; [|by left].
    right. exists g. rewrite D. split_and!; try done. by left.
  - right. exists x. split; [by right|done].
Qed.

(** A revocation object whose CA has no vector yet. *)
Lemma revs_first flag l1 g l2 m m' : take_revs flag m (l1 ++ g :: l2) = (m', Accept) ->
  m !! g_p0 g = None -> (forall x, x ∈ l1 -> g_p0 x <> g_p0 g) -> m' !! g_p0 g = Some (snd (srh_and_dcrv z g)).
Proof.
  revert m. induction l1 as [|x l1 IH]; intros m; cbn [app Client.take_revs].
  - destruct (checked c flag g); [|done..]. destruct (srh_and_dcrv z g) as [srh d]. destruct (verify_srh _ _ _ _ _); [|done..].
    intros H M _. eapply revs_keep; [exact H|]. rewrite M. apply lookup_insert.
  - destruct (checked c flag x); [|done..]. destruct (srh_and_dcrv z x) as [srh d]. destruct (verify_srh _ _ _ _ _); [|done..].
    intros H M N. eapply IH; [exact H| |set_solver]. destruct (m !! g_p0 x); [done|].
    rewrite lookup_insert_ne; [done|]. set_solver.
Qed.

Lemma sths_from flag l : forall m m' v k r, take_sths flag m l = (m', v) -> m' !! k = Some r ->
  m !! k = Some r \/ exists g x, g ∈ l /\ k = sth_key g /\ checked c flag g = Accept /\ head_of g = Some x /\ r = sth_root x.
Proof.
  induction l as [|g l IH]; intros m m' v k r; cbn [Client.take_sths]; [intros [= <- _]; by left|].
  destruct (checked c flag g) eqn:C; [|intros [= <- _]; by left..]. destruct (head_of g) as [x|] eqn:X; [|intros [= <- _]; by left].
  intros H M. destruct (IH _ _ _ _ _ H M) as [Y|(y & x' & I & J)].
  - apply lookup_insert_Some in Y as [[<- <-]|[_ Y]]; [|by left]. right. exists g, x. split; [by left|done].
  - right. exists y, x'. split; [by right|done].
Qed.

Lemma sths_other flag l k : (forall g, g ∈ l -> sth_key g <> k) -> forall m m' v, take_sths flag m l = (m', v) -> m' !! k = m !! k.
Proof.
  induction l as [|g l IH]; intros N m m' v; cbn [Client.take_sths]; [by intros [= <- _]|].
  destruct (checked c flag g) eqn:C; [|by intros [= <- _]..]. destruct (head_of g) as [x|] eqn:X; [|by intros [= <- _]].
  intros H. rewrite (IH ltac:(set_solver) _ _ _ H). apply lookup_insert_ne. set_solver.
Qed.

Lemma sths_last flag l1 g l2 m m' x : take_sths flag m (l1 ++ g :: l2) = (m', Accept) -> head_of g = Some x ->
  (forall y, y ∈ l2 -> sth_key y <> sth_key g) -> m' !! sth_key g = Some (sth_root x).
Proof.
  revert m. induction l1 as [|y l1 IH]; intros m; cbn [app Client.take_sths].
  - destruct (checked c flag g); [|done..]. intros H X N. rewrite X in H.
    rewrite (sths_other _ _ _ N _ _ _ H). apply lookup_insert.
  - destruct (checked c flag y); [|done..]. destruct (head_of y); [|done]. intros H X N. by eapply IH.
Qed.

Lemma poms_keep flag l : forall m m' v e, take_poms flag m l = (m', v) -> is_Some (m !! e) -> is_Some (m' !! e).
Proof.
  induction l as [|g l IH]; intros m m' v e; cbn [Client.take_poms]; [by intros [= <- _]|].
  destruct (checked c flag g); [|by intros [= <- _]..]. intros H M. eapply IH; [exact H|].
  apply lookup_insert_is_Some'. by right.
Qed.

Lemma poms_from flag l : forall m m' v e g, take_poms flag m l = (m', v) -> m' !! e = Some g ->
  m !! e = Some g \/ (g ∈ l /\ g_p0 g = e /\ checked c flag g = Accept).
Proof.
  induction l as [|g l IH]; intros m m' v e x; cbn [Client.take_poms]; [intros [= <- _]; by left|].
  destruct (checked c flag g) eqn:C; [|intros [= <- _]; by left..]. intros H M.
  destruct (IH _ _ _ _ _ H M) as [Y|(I & J)].
  - apply lookup_insert_Some in Y as [[<- <-]|[_ Y]]; [|by left]. right. split; [by left|done].
  - right. split; [by right|done].
Qed.

Lemma poms_done flag l : forall m m' g, take_poms flag m l = (m', Accept) -> g ∈ l -> is_Some (m' !! g_p0 g).
Proof.
  induction l as [|x l IH]; intros m m' g; cbn [Client.take_poms]; [by intros _ ?%elem_of_nil|].
  destruct (checked c flag x); [|done..]. intros H [-> |I]%elem_of_cons; [|by eapply IH].
  eapply poms_keep; [exact H|]. rewrite lookup_insert. by eexists.
Qed.

Lemma poms_other flag l e : (forall g, g ∈ l -> g_p0 g <> e) -> forall m m' v, take_poms flag m l = (m', v) -> m' !! e = m !! e.
Proof.
  induction l as [|g l IH]; intros N m m' v; cbn [Client.take_poms]; [by intros [= <- _]|].
  destruct (checked c flag g) eqn:C; [|by intros [= <- _]..].
  intros H. rewrite (IH ltac:(set_solver) _ _ _ H). apply lookup_insert_ne. set_solver.
Qed.

(** ** Handling an update *)

(** How far the call gets. *)
Inductive handled s flag u : clst -> outcome -> Prop :=
| hd_crv_stuck : cl_crv_lock s = true -> handled s flag u s Stuck
| hd_revs crv v : cl_crv_lock s = false -> take_revs flag (cl_crv s) (u_revs u) = (crv, v) -> v <> Accept ->
    handled s flag u (mkcl (cl_sth s) crv (cl_pom s) true (cl_sth_lock s) (cl_pom_lock s)) (refusal v)
| hd_sth_stuck crv : cl_crv_lock s = false -> take_revs flag (cl_crv s) (u_revs u) = (crv, Accept) -> cl_sth_lock s = true ->
    handled s flag u (mkcl (cl_sth s) crv (cl_pom s) false true (cl_pom_lock s)) Stuck
| hd_sths crv sth v : cl_crv_lock s = false -> take_revs flag (cl_crv s) (u_revs u) = (crv, Accept) -> cl_sth_lock s = false ->
    take_sths flag (cl_sth s) (u_sths u) = (sth, v) -> v <> Accept ->
    handled s flag u (mkcl sth crv (cl_pom s) false true (cl_pom_lock s)) (refusal v)
| hd_pom_stuck crv sth : cl_crv_lock s = false -> take_revs flag (cl_crv s) (u_revs u) = (crv, Accept) -> cl_sth_lock s = false ->
    take_sths flag (cl_sth s) (u_sths u) = (sth, Accept) -> cl_pom_lock s = true ->
    handled s flag u (mkcl sth crv (cl_pom s) false false true) Stuck
| hd_poms crv sth pom v : idle s -> take_revs flag (cl_crv s) (u_revs u) = (crv, Accept) ->
    take_sths flag (cl_sth s) (u_sths u) = (sth, Accept) ->
    take_poms flag (cl_pom s) (u_accs u ++ u_cons u) = (pom, v) -> v <> Accept ->
    handled s flag u (mkcl sth crv pom false false true) (refusal v)
| hd_done crv sth pom : idle s -> take_revs flag (cl_crv s) (u_revs u) = (crv, Accept) ->
    take_sths flag (cl_sth s) (u_sths u) = (sth, Accept) ->
    take_poms flag (cl_pom s) (u_accs u ++ u_cons u) = (pom, Accept) ->
    handled s flag u (mkcl sth crv pom false false false) Applied.

Lemma handle_inv s flag u s' o : handle_update s flag u = (s', o) -> handled s flag u s' o.
Proof.
  unfold Client.handle_update. destruct (cl_crv_lock s) eqn:L1; [intros H; injection H as <- <-; by constructor|].
  destruct (take_revs flag (cl_crv s) (u_revs u)) as [crv v1] eqn:R.
  destruct v1; [|intros H; injection H as <- <-; by eapply (hd_revs _ _ _ _ _ L1 R)..].
  destruct (cl_sth_lock s) eqn:L2; [intros H; injection H as <- <-; by eapply hd_sth_stuck|].
  destruct (take_sths flag (cl_sth s) (u_sths u)) as [sth v2] eqn:S.
  destruct v2; [|intros H; injection H as <- <-; by eapply (hd_sths _ _ _ _ _ _ L1 R L2 S)..].
  destruct (cl_pom_lock s) eqn:L3; [intros H; injection H as <- <-; by eapply hd_pom_stuck|].
  destruct (take_poms flag (cl_pom s) (u_accs u ++ u_cons u)) as [pom v3] eqn:Q.
  assert (idle s) as I by done.
  destruct v3; intros H; injection H as <- <-; [by eapply hd_done|by eapply (hd_poms _ _ _ _ _ _ _ I R S Q)..].
Qed.

Lemma handle_crv s flag u s' o : handle_update s flag u = (s', o) ->
  cl_crv s' = cl_crv s \/ exists v, take_revs flag (cl_crv s) (u_revs u) = (cl_crv s', v).
Proof. intros []%handle_inv; cbn; eauto. Qed.
Lemma handle_sth s flag u s' o : handle_update s flag u = (s', o) ->
  cl_sth s' = cl_sth s \/ exists v, take_sths flag (cl_sth s) (u_sths u) = (cl_sth s', v).
Proof. intros []%handle_inv; cbn; eauto. Qed.
Lemma handle_pom s flag u s' o : handle_update s flag u = (s', o) ->
  cl_pom s' = cl_pom s \/ exists v, take_poms flag (cl_pom s) (u_accs u ++ u_cons u) = (cl_pom s', v).
Proof. intros []%handle_inv; cbn; eauto. Qed.

Lemma vector_kept s flag u s' o ca v : handle_update s flag u = (s', o) -> cl_crv s !! ca = Some v -> cl_crv s' !! ca = Some v.
Proof. intros [-> |[v' H]]%handle_crv; [done|]. by eapply revs_keep. Qed.

Lemma conviction_kept s flag u s' o e : handle_update s flag u = (s', o) -> convicted s e -> convicted s' e.
Proof. unfold convicted. intros [-> |[v' H]]%handle_pom; [done|]. by eapply poms_keep. Qed.

Lemma conviction_from s flag u s' o e g : handle_update s flag u = (s', o) -> cl_pom s' !! e = Some g ->
  cl_pom s !! e = Some g \/ ((g ∈ u_accs u \/ g ∈ u_cons u) /\ g_p0 g = e /\ (flag = true -> verify c g = Accept)).
Proof.
  intros [-> |[v' H]]%handle_pom M; [by left|].
  destruct (poms_from _ _ _ _ _ _ _ H M) as [X|(I & J & K)]; [by left|right]. rewrite elem_of_app in I.
  split_and!; try done. intros ->. done.
Qed.

Lemma root_from s flag u s' o k r : handle_update s flag u = (s', o) -> cl_sth s' !! k = Some r ->
  cl_sth s !! k = Some r \/ exists g x, g ∈ u_sths u /\ k = g_p0 g ++ "@" ++ g_period g /\ (flag = true -> verify c g = Accept) /\
    head_of g = Some x /\ r = sth_root x.
Proof.
  intros [-> |[v' H]]%handle_sth M; [by left|].
  destruct (sths_from _ _ _ _ _ _ _ H M) as [X|(g & x & I & J & K & L)]; [by left|right].
  exists g, x. split_and!; try done; [by intros ->|apply L..].
Qed.

Lemma vector_from s flag u s' o ca d : handle_update s flag u = (s', o) -> cl_crv s' !! ca = Some d ->
  cl_crv s !! ca = Some d \/ exists g, g ∈ u_revs u /\ g_p0 g = ca /\ d = snd (srh_and_dcrv z g) /\ (flag = true -> verify c g = Accept) /\
    verify_srh c (fst (srh_and_dcrv z g)) d None (g_period g) = Accept.
Proof.
  intros [-> |[v' H]]%handle_crv M; [by left|].
  destruct (revs_from _ _ _ _ _ _ _ H M) as [X|(g & I & J & K & L & V)]; [by left|right].
  exists g. split_and!; try done. by intros ->.
Qed.

(** An applied update. *)
Lemma applied_inv s flag u s' : handle_update s flag u = (s', Applied) -> idle s /\ idle s' /\
  take_revs flag (cl_crv s) (u_revs u) = (cl_crv s', Accept) /\
  take_sths flag (cl_sth s) (u_sths u) = (cl_sth s', Accept) /\
  take_poms flag (cl_pom s) (u_accs u ++ u_cons u) = (cl_pom s', Accept).
Proof.
  intros H%handle_inv. remember Applied as o eqn:O. destruct H; try done; destruct v; done.
Qed.

Lemma first_delta_applied s flag u s' l1 g l2 : handle_update s flag u = (s', Applied) -> u_revs u = (l1 ++ g :: l2)%list ->
  cl_crv s !! g_p0 g = None -> (forall x, x ∈ l1 -> g_p0 x <> g_p0 g) -> cl_crv s' !! g_p0 g = Some (snd (srh_and_dcrv z g)).
Proof. intros (_ & _ & R & _)%applied_inv E M N. rewrite E in R. exact (revs_first _ _ _ _ _ _ R M N). Qed.

Lemma head_recorded s flag u s' l1 g l2 x : handle_update s flag u = (s', Applied) -> u_sths u = (l1 ++ g :: l2)%list ->
  head_of g = Some x -> (forall y, y ∈ l2 -> g_p0 y ++ "@" ++ g_period y <> g_p0 g ++ "@" ++ g_period g) ->
  cl_sth s' !! (g_p0 g ++ "@" ++ g_period g) = Some (sth_root x).
Proof. intros (_ & _ & _ & S & _)%applied_inv E X N. rewrite E in S. exact (sths_last _ _ _ _ _ _ _ S X N). Qed.

Lemma proofs_convict s flag u s' g : handle_update s flag u = (s', Applied) -> g ∈ u_accs u \/ g ∈ u_cons u -> convicted s' (g_p0 g).
Proof. intros (_ & _ & _ & _ & Q)%applied_inv I. eapply poms_done; [exact Q|]. by apply elem_of_app. Qed.

(** All of it verified. *)
Lemma revs_checked flag l : forall m m', take_revs flag m l = (m', Accept) -> Forall (λ g, checked c flag g = Accept) l.
Proof.
  induction l as [|g l IH]; intros m m'; cbn [Client.take_revs]; [by constructor|].
  destruct (checked c flag g) eqn:C; [|done..]. destruct (srh_and_dcrv z g). destruct (verify_srh _ _ _ _ _); [|done..].
  intros H. constructor; [done|]. by eapply IH.
Qed.
Lemma sths_checked flag l : forall m m', take_sths flag m l = (m', Accept) -> Forall (λ g, checked c flag g = Accept) l.
Proof.
  induction l as [|g l IH]; intros m m'; cbn [Client.take_sths]; [by constructor|].
  destruct (checked c flag g) eqn:C; [|done..]. destruct (head_of g); [|done].
  intros H. constructor; [done|]. by eapply IH.
Qed.
Lemma poms_checked flag l : forall m m', take_poms flag m l = (m', Accept) -> Forall (λ g, checked c flag g = Accept) l.
Proof.
  induction l as [|g l IH]; intros m m'; cbn [Client.take_poms]; [by constructor|].
  destruct (checked c flag g) eqn:C; [|done..]. intros H. constructor; [done|]. by eapply IH.
Qed.
Lemma applied_verified s u s' g : handle_update s true u = (s', Applied) -> update_lists u g -> verify c g = Accept.
Proof.
  intros (_ & _ & R & S & Q)%applied_inv L. apply revs_checked in R. apply sths_checked in S. apply poms_checked in Q.
  rewrite Forall_forall in R, S, Q. destruct L as [L|[L|L]]; [by apply S|by apply R|]. apply Q. by rewrite elem_of_app.
Qed.

(** ** Locks *)
Lemma locks_stay s flag u s' o : handle_update s flag u = (s', o) -> ~ idle s -> ~ idle s' /\ o <> Applied.
Proof.
  intros H%handle_inv N. unfold idle in *. destruct H; cbn; try done; (split; [|try by destruct v]); naive_solver.
Qed.
Lemma refused_locks s flag u s' : handle_update s flag u = (s', Refused) -> ~ idle s'.
Proof.
  intros H%handle_inv. unfold idle. remember Refused as o. destruct H; cbn; try done; naive_solver.
Qed.
Lemma applied_idle s flag u s' : handle_update s flag u = (s', Applied) -> idle s'.
Proof. by intros (_ & ? & _)%applied_inv. Qed.
End facts.
