(** Facts about JSON files. *)
From Verif Require Import Bytes Base64 Base64Facts Json JsonFacts Types Crypto Verify Bitset BitsetFacts Revocation Cert CryptoIO IndentFacts JsonPrefix CodecFacts WireFacts ExtFacts CTngExt.
From Verif Require Import SpecCryptoIO CryptoIOFacts Disk SpecDisk DiskFacts Monitor MonitorMore MonitorServe Client SpecClient ClientFacts ClientMore JsonFile SpecJsonFile.
From Coq Require Import Lia.
Open Scope string_scope.

(** ** Writing *)

Lemma rewriting_cases o d p t d' : d' ∈ rewriting o d p t -> exists x rest, d' = <[p := File x]> d /\ t = x ++ rest.
Proof.
  unfold rewriting. destruct (create o d p) as [d1|] eqn:E; [|by intros ?%elem_of_nil]. apply create_some in E as [-> _].
  intros H. apply elem_of_list_In, in_map_iff in H as (k & <- & _). destruct (substring_prefix t k) as [rest H].
  exists (substring 0 k t), rest. split; [|done]. unfold written. apply insert_insert.
Qed.

Lemma writing_cases o d p t d' : d' ∈ writing o d p t -> d' = d \/ exists x rest, d' = <[p := File x]> d /\ t = x ++ rest.
Proof.
  unfold writing. destruct (d !! p) as [e|].
  - intros H. apply elem_of_cons in H as [-> |H]; [by left|]. destruct (os_open o p); [|by apply elem_of_nil in H].
    right. by eapply rewriting_cases.
  - destruct (create o d p) as [d1|] eqn:E.
    + apply create_some in E as [-> _]. intros H. apply elem_of_cons in H as [-> |H]; [by left|].
      apply elem_of_cons in H as [-> |H]; [right; by exists "", t|]. right.
      apply rewriting_cases in H as (x & rest & -> & ->). exists x, rest. by rewrite insert_insert.
    + intros H. apply elem_of_list_singleton in H as ->. by left.
Qed.

Lemma writing_only o d p t d' : d' ∈ writing o d p t -> only_changes p d d'.
Proof.
  intros [-> |(x & rest & -> & _)]%writing_cases q N; [done|]. by rewrite lookup_insert_ne.
Qed.

Lemma writing_json o d p v d' : wf_json v -> structured v -> d' ∈ writing o d p (write_data v) ->
  d' = d \/ exists x, d' = <[p := File x]> d /\ (x = write_data v \/ parse_json x = None).
Proof.
  intros W S [-> |(x & rest & -> & E)]%writing_cases; [by left|]. right. exists x. split; [done|].
  destruct rest as [|a rest]; [left; by rewrite app_nil_s in E|]. right.
  eapply (prefix_no_json "  " newline v); [by exists ""|done|done|by destruct v|exact E|done].
Qed.

Lemma may_create o d p : may_write o d p -> create o d p = Some (<[p := File ""]> d).
Proof.
  intros (C & _ & N & q & x & -> & Q). unfold create, parent. rewrite rev_app_distr. cbn. rewrite rev_involutive.
  rewrite bool_decide_true by done. rewrite C. cbn. destruct (d !! (q ++ [x])%list) as [[]|]; done.
Qed.

Lemma seq_last {A} (f : nat -> A) a n : List.last (map f (seq 0 (S n))) a = f n.
Proof. rewrite seq_S, map_app. cbn. apply List.last_last. Qed.

Lemma last_cons2 {A} (x y : A) l a : List.last (x :: y :: l) a = List.last (y :: l) a.
Proof. done. Qed.

Lemma last_cons_last {A} (x a b : A) l : l <> [] -> List.last (x :: l) a = List.last l b.
Proof.
  intros N. destruct l as [|y l]; [done|]. clear N. change (List.last (y :: l) a = List.last (y :: l) b).
  revert y. induction l as [|z l IH]; intros y; [done|]. apply IH.
Qed.

Lemma rewriting_final o d p t a : may_write o d p -> rewriting o d p t <> [] /\ List.last (rewriting o d p t) a = <[p := File t]> d.
Proof.
  intros M. unfold rewriting. rewrite (may_create _ _ _ M). split.
  - rewrite seq_S, map_app. by destruct (map _ _).
  - rewrite seq_last. unfold written. rewrite substring_all. apply insert_insert.
Qed.

Lemma may_write_other o d p q x : may_write o d p -> d !! q <> Some Folder -> may_write o (<[q := File x]> d) p.
Proof.
  intros (C & O & N & r & y & -> & Q) Nq. split_and!; [done|done| |].
  - destruct (decide (q = (r ++ [y])%list)) as [->|N']; [by rewrite lookup_insert|by rewrite lookup_insert_ne].
  - exists r, y. split; [done|]. rewrite lookup_insert_ne; [done|]. by intros ->.
Qed.

Lemma writing_final o d p t : may_write o d p -> final d (writing o d p t) = <[p := File t]> d.
Proof.
  intros M. unfold final, writing. pose proof M as (_ & O & _). destruct (d !! p) as [e|] eqn:E.
  - rewrite O. destruct (rewriting_final o d p t d M) as [N H]. by rewrite (last_cons_last _ d d).
  - rewrite (may_create _ _ _ M).
    assert (may_write o (<[p := File ""]> d) p) as M' by (by apply may_write_other; [|rewrite E]).
    destruct (rewriting_final o _ p t d M') as [N H].
    rewrite last_cons2, (last_cons_last _ d d) by done. rewrite H. apply insert_insert.
Qed.

Lemma writing_ne o d p t : writing o d p t <> [].
Proof. unfold writing. destruct (d !! p); [done|]. by destruct (create o d p). Qed.

Lemma final_in (d : fs) (l : list fs) : l <> [] -> final d l ∈ l.
Proof.
  unfold final. induction l as [|x l IH]; [done|]. intros _. destruct l as [|y l]; [by left|]. rewrite last_cons2. right. by apply IH.
Qed.

(** Every state but the first and the last spoils the file. *)
Lemma writing_between o d p v d' : wf_json v -> structured v -> may_write o d p -> d' ∈ writing o d p (write_data v) ->
  d' = d \/ d' = <[p := File (write_data v)]> d \/ exists x, d' = <[p := File x]> d /\ parse_json x = None.
Proof.
  intros W S M H. apply (writing_json _ _ _ _ _ W S) in H as [-> |(x & -> & [-> |H])]; [by left|by right; left|]. right. right. eauto.
Qed.

(** ** Clients *)
Lemma wf_sth_json l : wf_json (sth_json l).
Proof. constructor. apply Forall_fmap. apply Forall_true. intros x. constructor. Qed.
Lemma wf_crv_json l : wf_json (crv_json l).
Proof. constructor. apply Forall_fmap. apply Forall_true. intros x. constructor. Qed.
Lemma wf_pom_json l : wf_json (pom_json l).
Proof. constructor. apply Forall_fmap. apply Forall_true. intros x. apply wf_gobj. Qed.

Lemma lists_nodup {A} (m : gmap string A) l : lists m l -> NoDup l.*1.
Proof. intros H. unfold lists in H. rewrite H. apply NoDup_fst_map_to_list. Qed.

Lemma lists_table {A} (m : gmap string A) l : lists m l -> fold_left (λ m kv, <[fst kv := snd kv]> m) l ∅ = m.
Proof.
  intros H. transitivity (fold_left (λ (m : gmap string A) kv, <[fst kv := (λ x, x) (snd kv)]> m) l ∅); [done|].
  rewrite (fold_table (λ x, x)) by by eapply lists_nodup. rewrite (right_id_L ∅ (∪)).
  assert (map (λ kv : string * A, (fst kv, snd kv)) l = l) as -> by (clear; induction l as [|[]]; cbn; congruence).
  rewrite <- (list_to_map_to_list m). apply list_to_map_proper; [by eapply lists_nodup|exact H].
Qed.

Lemma sth_read_any s l : lists (cl_sth s) l -> load_sth (Some (write_data (sth_json l))) = cl_sth s.
Proof.
  intros H. unfold load_sth. rewrite parse_write_data by apply wf_sth_json. unfold sth_json. rewrite fold_map_l. cbn [fst snd]. by apply lists_table.
Qed.

Lemma pom_read_any s l : lists (cl_pom s) l -> load_pom (Some (write_data (pom_json l))) = cl_pom s.
Proof.
  intros H. unfold load_pom. rewrite parse_write_data by apply wf_pom_json. unfold pom_json. rewrite fold_map_l. cbn [fst snd].
  etransitivity; [|by apply lists_table]. generalize (∅ : gmap string gobj). clear H.
  induction l as [|x l IH]; intros m; [done|]. cbn [fold_left]. rewrite gobj_tol_json. apply IH.
Qed.

Definition vectors_ok (s : clst) : Prop := map_Forall (λ _, bs_ok) (cl_crv s).

Lemma crv_read_any s l : vectors_ok s -> lists (cl_crv s) l -> load_crv (Some (write_data (crv_json l))) = Some (cl_crv s).
Proof.
  intros V H. unfold load_crv. rewrite parse_write_data by apply wf_crv_json. unfold crv_json. rewrite read_crvs_fold.
  - f_equal. by apply lists_table.
  - apply Forall_forall. intros [k v] I. unfold lists in H. rewrite H in I. apply elem_of_map_to_list in I. by apply (V k v).
Qed.

Section life.
Context {P : prims} (z : gzip) (c : cconf P) (o : os) (F : cfiles).

Lemma start_cases d : client_start o d F = match load_crv (read_byte o d (f_crv F)) with
  | None => None | Some m => Some (mkcl (load_sth (read_byte o d (f_sth F))) m ∅ false false false) end.
Proof. done. Qed.

Lemma life_vectors s d : life z c o F s d -> vectors_ok s.
Proof.
  induction 1 as [d|s d flag u s' r _ IH H _|s d ls lc lp _ IH|s d ls lc lp d' s' _ IH _ _ _ _ H].
  - apply map_Forall_empty.
  - by eapply handle_vectors_ok.
  - done.
  - rewrite start_cases in H. destruct (load_crv _) as [m|] eqn:E; [|done]. injection H as <-. unfold vectors_ok. cbn. by eapply load_crv_ok.
Qed.

Lemma read_same d d' p q : only_changes p d d' -> q <> p -> read_byte o d' q = read_byte o d q.
Proof. intros H N. unfold read_byte, read_file. by rewrite (H q N). Qed.

Lemma read_insert d p x : os_open o p = true -> read_byte o (<[p := File x]> d) p = Some x.
Proof. intros H. unfold read_byte, read_file. by rewrite H, lookup_insert. Qed.

Lemma read_shut d p : os_open o p = false -> read_byte o d p = None.
Proof. intros H. unfold read_byte. by rewrite H. Qed.

(** The file of tree heads during a save: the old contents, nothing, or the new. *)
Lemma sth_written s l d d' : lists (cl_sth s) l -> d' ∈ writing o d (f_sth F) (write_data (sth_json l)) ->
  load_sth (read_byte o d' (f_sth F)) = load_sth (read_byte o d (f_sth F)) \/ load_sth (read_byte o d' (f_sth F)) = ∅ \/
  load_sth (read_byte o d' (f_sth F)) = cl_sth s.
Proof.
  intros L [-> |(x & -> & H)]%writing_json; [by left| |apply wf_sth_json|done].
  destruct (os_open o (f_sth F)) eqn:O; [|left; by rewrite !read_shut].
  rewrite read_insert by done. destruct H as [-> |H]; [right; right; by apply sth_read_any|]. right. left. unfold load_sth. by rewrite H.
Qed.

Lemma crv_written s l d d' : vectors_ok s -> lists (cl_crv s) l -> d' ∈ writing o d (f_crv F) (write_data (crv_json l)) ->
  load_crv (read_byte o d' (f_crv F)) = load_crv (read_byte o d (f_crv F)) \/ load_crv (read_byte o d' (f_crv F)) = None \/
  load_crv (read_byte o d' (f_crv F)) = Some (cl_crv s).
Proof.
  intros V L [-> |(x & -> & H)]%writing_json; [by left| |apply wf_crv_json|done].
  destruct (os_open o (f_crv F)) eqn:O; [|left; by rewrite !read_shut].
  rewrite read_insert by done. destruct H as [-> |H]; [right; right; by apply crv_read_any|]. right. left. unfold load_crv. by rewrite H.
Qed.

(** The files of tree heads and vectors during a save. *)
Lemma files_during s d ls lc lp d' : vectors_ok s -> distinct F -> lists (cl_sth s) ls -> lists (cl_crv s) lc ->
  d' ∈ saving_all o d F ls lc lp ->
  (load_sth (read_byte o d' (f_sth F)) = load_sth (read_byte o d (f_sth F)) \/ load_sth (read_byte o d' (f_sth F)) = ∅ \/
    load_sth (read_byte o d' (f_sth F)) = cl_sth s) /\
  (load_crv (read_byte o d' (f_crv F)) = load_crv (read_byte o d (f_crv F)) \/ load_crv (read_byte o d' (f_crv F)) = None \/
     load_crv (read_byte o d' (f_crv F)) = Some (cl_crv s)).
Proof.
  intros V (N1 & N2 & N3) L1 L2 H. unfold saving_all in H.
  set (S1 := writing o d (f_sth F) (write_data (sth_json ls))) in *.
  set (d1 := final d S1) in *.
  set (S2 := writing o d1 (f_crv F) (write_data (crv_json lc))) in *.
  set (d2 := final d1 S2) in *.
  assert (d1 ∈ S1) as I1 by apply final_in, writing_ne.
  assert (d2 ∈ S2) as I2 by apply final_in, writing_ne.
  assert (forall d', d' ∈ S1 -> (load_sth (read_byte o d' (f_sth F)) = load_sth (read_byte o d (f_sth F)) \/ load_sth (read_byte o d' (f_sth F)) = ∅ \/
    load_sth (read_byte o d' (f_sth F)) = cl_sth s) /\ load_crv (read_byte o d' (f_crv F)) = load_crv (read_byte o d (f_crv F))) as K1.
  { intros d3 I3. split; [by eapply sth_written|]. f_equal. eapply read_same; [by eapply writing_only|done]. }
  assert (forall d', d' ∈ S2 -> read_byte o d' (f_sth F) = read_byte o d1 (f_sth F) /\
    (load_crv (read_byte o d' (f_crv F)) = load_crv (read_byte o d1 (f_crv F)) \/ load_crv (read_byte o d' (f_crv F)) = None \/
     load_crv (read_byte o d' (f_crv F)) = Some (cl_crv s))) as K2.
  { intros d3 I3. split; [|by eapply crv_written]. eapply read_same; [by eapply writing_only|done]. }
  destruct (K1 d1 I1) as [A1 B1]. destruct (K2 d2 I2) as [A2 B2].
  apply elem_of_app in H as [H|H]; [destruct (K1 _ H) as [A B]; auto|]. apply elem_of_app in H as [H|H].
    - destruct (K2 _ H) as [A B]. rewrite A. rewrite B1 in B. auto.
    - rewrite (read_same d2 d' (f_pom F) (f_sth F)) by (done || by eapply writing_only).
      rewrite (read_same d2 d' (f_pom F) (f_crv F)) by (done || by eapply writing_only). rewrite A2. rewrite B1 in B2. auto.
Qed.

(** Wherever a save is interrupted: the client cannot be started, or it has the old or the new vectors, and the
    old, the new or no tree heads. *)
Lemma interrupted s d ls lc lp d' : life z c o F s d -> distinct F -> lists (cl_sth s) ls -> lists (cl_crv s) lc -> lists (cl_pom s) lp ->
  d' ∈ saving_all o d F ls lc lp ->
  client_start o d' F = None \/
  exists s', client_start o d' F = Some s' /\ idle s' /\ cl_pom s' = ∅ /\
    (cl_sth s' = load_sth (read_byte o d (f_sth F)) \/ cl_sth s' = ∅ \/ cl_sth s' = cl_sth s) /\
    (Some (cl_crv s') = load_crv (read_byte o d (f_crv F)) \/ cl_crv s' = cl_crv s).
Proof.
  intros L D L1 L2 L3 H. destruct (files_during s d ls lc lp d' (life_vectors _ _ L) D L1 L2 H) as [A B].
  rewrite start_cases. destruct (load_crv (read_byte o d' (f_crv F))) as [m|] eqn:E; [|by left]. right.
  eexists. split; [done|]. cbn. split; [done|]. split; [done|]. split; [done|]. destruct B as [B|[B|B]]; [left; done|done|right]. by injection B.
Qed.

(** A complete save is found again. *)
Lemma saving_final d ls lc lp : may_write o d (f_sth F) -> may_write o d (f_crv F) -> may_write o d (f_pom F) ->
  final d (saving_all o d F ls lc lp) = <[f_pom F := File (write_data (pom_json lp))]> (<[f_crv F := File (write_data (crv_json lc))]>
    (<[f_sth F := File (write_data (sth_json ls))]> d)).
Proof.
  intros M1 M2 M3. unfold saving_all. rewrite (writing_final o d _ _ M1).
  assert (d !! f_sth F <> Some Folder) as Q1 by apply M1.
  pose proof (may_write_other o d _ (f_sth F) (write_data (sth_json ls)) M2 Q1) as M2'.
  pose proof (may_write_other o d _ (f_sth F) (write_data (sth_json ls)) M3 Q1) as M3'.
  rewrite (writing_final o _ _ _ M2').
  assert (<[f_sth F:=File (write_data (sth_json ls))]> d !! f_crv F <> Some Folder) as Q2 by apply M2'.
  pose proof (may_write_other o _ _ (f_crv F) (write_data (crv_json lc)) M3' Q2) as M3''.
  rewrite <- (writing_final o _ _ _ M3''). unfold final. rewrite app_assoc.
  generalize (writing_ne o (<[f_crv F:=File (write_data (crv_json lc))]> (<[f_sth F:=File (write_data (sth_json ls))]> d)) (f_pom F) (write_data (pom_json lp))).
  generalize (writing o (<[f_crv F:=File (write_data (crv_json lc))]> (<[f_sth F:=File (write_data (sth_json ls))]> d)) (f_pom F) (write_data (pom_json lp))).
  intros l3 N. generalize (writing o d (f_sth F) (write_data (sth_json ls)) ++
    writing o (<[f_sth F:=File (write_data (sth_json ls))]> d) (f_crv F) (write_data (crv_json lc)))%list. intros l.
  induction l as [|x l IH]; cbn [app].
  - destruct l3 as [|y l3]; [done|]. clear. revert y. induction l3 as [|w l3 IH]; intros y; [done|]. apply IH.
  - rewrite <- IH. apply last_cons_last. destruct l; [|done]. by destruct l3.
Qed.

Lemma saved_found s d ls lc lp : life z c o F s d -> distinct F -> lists (cl_sth s) ls -> lists (cl_crv s) lc -> lists (cl_pom s) lp ->
  may_write o d (f_sth F) -> may_write o d (f_crv F) -> may_write o d (f_pom F) ->
  let d' := final d (saving_all o d F ls lc lp) in
  exists s', client_start o d' F = Some s' /\ idle s' /\ cl_sth s' = cl_sth s /\ cl_crv s' = cl_crv s /\
    load_pom (read_byte o d' (f_pom F)) = cl_pom s.
Proof.
  intros L (N1 & N2 & N3) L1 L2 L3 M1 M2 M3 d'. pose proof (life_vectors _ _ L) as V.
  pose proof (saving_final d ls lc lp M1 M2 M3) as E. fold d' in E.
  assert (os_open o (f_sth F) = true /\ os_open o (f_crv F) = true /\ os_open o (f_pom F) = true) as (O1 & O2 & O3)
    by (split_and!; [apply M1|apply M2|apply M3]).
  assert (read_byte o d' (f_sth F) = Some (write_data (sth_json ls))) as R1.
  { rewrite E. unfold read_byte, read_file. rewrite O1, !lookup_insert_ne, lookup_insert by done. done. }
  assert (read_byte o d' (f_crv F) = Some (write_data (crv_json lc))) as R2.
  { rewrite E. unfold read_byte, read_file. rewrite O2, lookup_insert_ne, lookup_insert by done. done. }
  assert (read_byte o d' (f_pom F) = Some (write_data (pom_json lp))) as R3.
  { rewrite E. unfold read_byte, read_file. by rewrite O3, lookup_insert. }
  rewrite start_cases, R1, R2, R3, (crv_read_any s), (sth_read_any s), (pom_read_any s) by done. eexists. split; [done|]. done.
Qed.

(** From the moment the file of vectors has been opened for writing until it is complete, the client cannot be started. *)
Lemma dead_while_saving s l d d' : lists (cl_crv s) l -> may_write o d (f_crv F) ->
  d' ∈ writing o d (f_crv F) (write_data (crv_json l)) -> d' <> d -> d' <> final d (writing o d (f_crv F) (write_data (crv_json l))) ->
  client_start o d' F = None.
Proof.
  intros L M H N1 N2. rewrite (writing_final _ _ _ _ M) in N2.
  destruct (writing_between o d _ _ d' (wf_crv_json l) I M H) as [->|[->|(x & -> & E)]]; try done.
  rewrite start_cases, read_insert by apply M. unfold load_crv. by rewrite E.
Qed.

(** And there are such moments. *)
Lemma dead_moment s l d : lists (cl_crv s) l -> may_write o d (f_crv F) ->
  <[f_crv F := File ""]> d ∈ writing o d (f_crv F) (write_data (crv_json l)) /\ client_start o (<[f_crv F := File ""]> d) F = None.
Proof.
  intros L M. split; [|rewrite start_cases, read_insert by apply M; done].
  assert (<[f_crv F := File ""]> d ∈ rewriting o d (f_crv F) (write_data (crv_json l))) as R.
  { unfold rewriting. rewrite (may_create _ _ _ M). cbn [seq map].
    assert (written (<[f_crv F:=File ""]> d) (f_crv F) (write_data (crv_json l)) 0 = <[f_crv F := File ""]> d) as ->; [|left].
    unfold written. rewrite insert_insert. f_equal. f_equal. by destruct (write_data _). }
  unfold writing. destruct (d !! f_crv F) as [e|].
  - pose proof M as (_ & O & _). rewrite O. by right.
  - rewrite (may_create _ _ _ M). right. by left.
Qed.
End life.

(** ** Monitors *)
Lemma unmarshal_parsed s v : parse_json s = Some v ->
  update_unmarshal s = match v with JObj l => update_fields zero_update l | JNull => Some zero_update | _ => None end.
Proof. intros H. unfold update_unmarshal. rewrite H. by destruct v. Qed.

Lemma update_read u : update_unmarshal (write_data (update_json u)) = Some u.
Proof.
  rewrite <- (update_roundtrip u). unfold update_marshal.
  rewrite (unmarshal_parsed _ _ (parse_write_data _ (wf_update u))). by rewrite (unmarshal_parsed _ _ (parse_json_print _ (wf_update u))).
Qed.

Lemma components_plain s r : lacks "/" s -> components (s ++ String "/" r) = s :: components r.
Proof.
  induction s as [|a s IH]; cbn; [done|]. intros [N H]. destruct (Ascii.eqb_spec a "/") as [->|_]; [done|]. by rewrite IH.
Qed.

Lemma lacks_app a s t : lacks a s -> lacks a t -> lacks a (s ++ t).
Proof. induction s as [|b s IH]; cbn; [done|]. intros [H1 H2] H3. auto. Qed.

Lemma request_components p : lacks "/" p -> components ("Period_" ++ p ++ "/ClientUpdate.json") = ["Period_" ++ p; "ClientUpdate.json"].
Proof.
  intros H. change ("Period_" ++ p ++ "/ClientUpdate.json") with ("Period_" ++ (p ++ String "/" "ClientUpdate.json")).
  rewrite <- app_assoc_s. rewrite components_plain; [done|]. apply lacks_app; [repeat split; done|done].
Qed.

Definition period_dir (dir : fpath) (p : string) : fpath := (dir ++ [("Period_" ++ p)%string])%list.

Lemma update_path_dir dir p : update_path dir p = (period_dir dir p ++ ["ClientUpdate.json"])%list.
Proof. unfold update_path, period_dir. by rewrite <- app_assoc. Qed.

(** What a plain request reads. *)
Lemma answer_plain o d dir p : lacks "/" p -> answer_update o d dir p =
  if bool_decide (d !! dir = Some Folder) && bool_decide (d !! period_dir dir p = Some Folder) then
    match read_byte o d (update_path dir p) with Some t => served <$> update_unmarshal t | None => None end
  else None.
Proof.
  intros H. unfold answer_update. rewrite (request_components p H).
  set (x := "Period_" ++ p). assert (String.eqb x "" || String.eqb x "." = false /\ String.eqb x ".." = false) as [X1 X2] by done.
  cbn [resolve]. rewrite X1, X2. change (dir ++ [x])%list with (period_dir dir p).
  destruct (bool_decide (d !! dir = Some Folder)); [|done]. destruct (bool_decide (d !! period_dir dir p = Some Folder)); [|done].
  cbn [andb]. rewrite update_path_dir. done.
Qed.

(** The monitor writes into its own tree; directories are only added. *)
Lemma mkdirs_states o rest : forall d p d', d' ∈ mkdirs o d p rest ->
  (forall q, d' !! q = d !! q \/ (d !! q = None /\ d' !! q = Some Folder /\ exists k r, rest = (k ++ r)%list /\ k <> [] /\ q = (p ++ k)%list)).
Proof.
  induction rest as [|x rest IH]; intros d p d' H q; cbn [mkdirs] in H.
  - apply elem_of_list_singleton in H as ->. by left.
  - assert (forall d1, d' ∈ mkdirs o d1 (p ++ [x])%list rest -> d' !! q = d1 !! q \/
      (d1 !! q = None /\ d' !! q = Some Folder /\ exists k r, (x :: rest) = (k ++ r)%list /\ k <> [] /\ q = (p ++ k)%list)) as K.
    { intros d1 H1. destruct (IH _ _ _ H1 q) as [E|(E1 & E2 & k & r & -> & N & ->)]; [by left|]. right. split_and!; [done|done|].
      exists (x :: k), r. split_and!; [done|done|]. by rewrite <- app_assoc. }
    destruct (d !! (p ++ [x])%list) as [[t|]|] eqn:E.
    + apply elem_of_list_singleton in H as ->. by left.
    + by apply K.
    + destruct (mkdir o d (p ++ [x])%list) as [d1|] eqn:M; [|apply elem_of_list_singleton in H as ->; by left].
      apply elem_of_cons in H as [->|H]; [by left|]. unfold mkdir in M. rewrite E in M. destruct (parent _); [|done]. destruct (_ && _); [|done].
      injection M as <-. destruct (decide (q = (p ++ [x])%list)) as [->|N].
      * right. split; [done|]. destruct (K _ H) as [K'|(K1 & _)]; [|by rewrite lookup_insert in K1]. rewrite lookup_insert in K'. split; [done|].
        exists [x], rest. done.
      * destruct (K _ H) as [K'|K']; rewrite lookup_insert_ne in K' by done; [by left|by right].
Qed.

Lemma create_dir_states o d p d' : d' ∈ create_dir o d p ->
  forall q, d' !! q = d !! q \/ (d !! q = None /\ d' !! q = Some Folder /\ below q p /\ d !! p = None).
Proof.
  unfold create_dir. destruct (d !! p) eqn:E; [intros ->%elem_of_list_singleton; by left|]. intros H q.
  destruct (mkdirs_states _ _ _ _ _ H q) as [K|(K1 & K2 & k & r & -> & _ & ->)]; [by left|]. right. split_and!; try done. by exists r.
Qed.

Lemma create_dir_ne o d p : create_dir o d p <> [].
Proof.
  unfold create_dir. destruct (d !! p); [done|]. assert (forall r d q, mkdirs o d q r <> []) as K.
  { induction r as [|x r IH]; intros d' q; cbn [mkdirs]; [done|]. destruct (_ !! _) as [[]|]; [done|apply IH|]. by destruct (mkdir _ _ _). }
  apply K.
Qed.

Lemma not_below_child dir x y : below (dir ++ [x])%list (dir ++ [y])%list -> x = y.
Proof.
  intros [k E]. rewrite <- app_assoc in E. apply app_inv_head in E. by injection E.
Qed.

Lemma not_below_file dir p q : ~ below (update_path dir q) (period_dir dir p).
Proof.
  intros [k E]. apply (f_equal length) in E. rewrite update_path_dir in E. unfold period_dir in E. rewrite !app_length in E. cbn in E. lia.
Qed.

Lemma file_not_dir dir p q : update_path dir q <> period_dir dir p.
Proof. intros E. apply (not_below_file dir p q). exists []. by rewrite E, app_nil_r. Qed.

Lemma file_not_base dir q : update_path dir q <> dir.
Proof. intros E. apply (f_equal length) in E. unfold update_path in E. rewrite app_length in E. cbn in E. lia. Qed.

Lemma dir_not_base dir q : period_dir dir q <> dir.
Proof. intros E. apply (f_equal length) in E. unfold period_dir in E. rewrite app_length in E. cbn in E. lia. Qed.

Lemma crv_not_base dir : crv_path dir <> dir.
Proof. intros E. apply (f_equal length) in E. unfold crv_path in E. rewrite app_length in E. cbn in E. lia. Qed.

Lemma crv_not_dir dir q : crv_path dir <> period_dir dir q.
Proof. intros E. apply app_inv_head in E. by injection E. Qed.

Lemma crv_not_file dir q : crv_path dir <> update_path dir q.
Proof. intros E. apply app_inv_head in E. by injection E. Qed.

Lemma period_app_inj a b : "Period_" ++ a = "Period_" ++ b -> a = b.
Proof. by intros [= ->]. Qed.

Lemma file_inj dir p q : update_path dir p = update_path dir q -> p = q.
Proof. intros E. apply app_inv_head in E. injection E as E. done. Qed.

Lemma create_file_states o d p : create_file o d p = d \/ (d !! p = None /\ create_file o d p = <[p := File ""]> d).
Proof.
  unfold create_file. destruct (d !! p) eqn:E; [by left|]. destruct (create o d p) as [d1|] eqn:C; [|by left].
  apply create_some in C as [-> _]. by right.
Qed.

(** What the states have in common, by path. *)
Definition stage (dir : fpath) (p : string) (u : update) (d d' : fs) : Prop :=
  (forall q, q <> update_path dir p -> q <> crv_path dir -> d' !! q = d !! q \/ (d !! q = None /\ d' !! q = Some Folder /\ below q (period_dir dir p))) /\
  (d' !! update_path dir p = d !! update_path dir p \/
   exists x, d' !! update_path dir p = Some (File x) /\ (x = write_data (update_json u) \/ parse_json x = None)).

Lemma stages o d dir p u vs d' : d' ∈ saving_storage o d dir p u vs -> stage dir p u d d'.
Proof.
  unfold saving_storage. set (s1 := create_dir o d (dir ++ [("Period_" ++ p)%string])%list). set (d1 := final d s1).
  set (d2 := create_file o d1 (update_path dir p)). set (s3 := writing o d2 (update_path dir p) _).
  assert (forall d', d' ∈ s1 -> stage dir p u d d' /\ d' !! update_path dir p = d !! update_path dir p) as K1.
  { intros d3 H. assert (d3 !! update_path dir p = d !! update_path dir p) as Z.
    { destruct (create_dir_states _ _ _ _ H (update_path dir p)) as [E|(_ & _ & B & _)]; [done|]. by destruct (not_below_file dir p p). }
    split; [|done]. split; [|by left]. intros q _ _. destruct (create_dir_states _ _ _ _ H q) as [E|(E1 & E2 & B & _)]; [by left|by right]. }
  assert (d1 ∈ s1) as I1 by apply final_in, create_dir_ne. destruct (K1 d1 I1) as [[A1 B1] C1].
  assert (stage dir p u d d2) as K2.
  { unfold d2. destruct (create_file_states o d1 (update_path dir p)) as [->|[_ ->]]; [by split|]. split.
    - intros q N1 N2. rewrite lookup_insert_ne by done. by apply A1.
    - right. exists "". rewrite lookup_insert. split; [done|by right]. }
  assert (forall d', d' ∈ s3 -> stage dir p u d d') as K3.
  { intros d3 H. unfold s3 in H. apply writing_json in H as [->|(x & -> & H)]; [done| |apply wf_update|done]. destruct K2 as [A2 B2]. split.
    - intros q N1 N2. rewrite lookup_insert_ne by done. by apply A2.
    - right. exists x. by rewrite lookup_insert. }
  intros H. apply elem_of_app in H as [H|H]; [by apply K1|]. apply elem_of_app in H as [H|H]; [by apply K3|].
  assert (final d2 s3 ∈ s3) as I3 by apply final_in, writing_ne. destruct (K3 _ I3) as [A3 B3].
  pose proof (writing_only _ _ _ _ _ H) as W. split.
  - intros q N1 N2. rewrite (W q N2). by apply A3.
  - rewrite (W (update_path dir p)); [done|]. intros E. symmetry in E. by apply crv_not_file in E.
Qed.

Lemma tree_absent d q k : tree d -> d !! q <> Some Folder -> k <> [] -> d !! (q ++ k)%list = None.
Proof.
  intros T N K. induction k as [|x k IH] using rev_ind; [done|]. clear K. destruct (d !! (q ++ k ++ [x])%list) eqn:E; [|done]. exfalso.
  rewrite app_assoc in E. assert (d !! (q ++ k)%list = Some Folder) as F by (eapply T; by rewrite E).
  destruct k as [|y k]; [by rewrite app_nil_r in F|]. by rewrite IH in F.
Qed.

(** At every moment a request is answered as before, not at all, or with the new update. *)
Lemma served_whole o d dir p u vs d' : tree d -> lacks "/" p -> d' ∈ saving_storage o d dir p u vs ->
  answer_update o d' dir p = answer_update o d dir p \/ answer_update o d' dir p = None \/ answer_update o d' dir p = Some (served u).
Proof.
  intros T L H. destruct (stages _ _ _ _ _ _ _ H) as [A B]. rewrite !answer_plain by done.
  destruct (_ && _) eqn:G; [|by right; left]. apply andb_true_iff in G as [G1 G2]. apply bool_decide_eq_true in G1, G2.
  destruct (os_open o (update_path dir p)) eqn:O; [|rewrite read_shut by done; by right; left].
  unfold read_byte, read_file. rewrite O. destruct B as [B|(x & B & [->|X])].
  - rewrite B. destruct (d !! update_path dir p) as [[t|]|] eqn:E; [|by right; left|by right; left].
    assert (d !! period_dir dir p = Some Folder) as E1 by (apply (T _ "ClientUpdate.json"); by rewrite <- update_path_dir, E).
    assert (d !! dir = Some Folder) as E2 by (apply (T _ ("Period_" ++ p)); exact (mk_is_Some _ _ E1)).
    rewrite !bool_decide_true by done. by left.
  - rewrite B, update_read. by right; right.
  - rewrite B. unfold update_unmarshal. rewrite X. by right; left.
Qed.

Lemma other_periods o d dir p q u vs d' : tree d -> lacks "/" q -> q <> p -> d' ∈ saving_storage o d dir p u vs ->
  answer_update o d' dir q = answer_update o d dir q.
Proof.
  intros T L N H. destruct (stages _ _ _ _ _ _ _ H) as [A _]. rewrite !answer_plain by done.
  assert (d' !! period_dir dir q = d !! period_dir dir q) as E1.
  { destruct (A (period_dir dir q)) as [E|(_ & _ & B)]; [intros E; symmetry in E; by apply file_not_dir in E|intros E; symmetry in E; by apply crv_not_dir in E|done|].
    apply not_below_child in B. by apply period_app_inj in B. }
  assert (read_byte o d' (update_path dir q) = read_byte o d (update_path dir q)) as E2.
  { unfold read_byte, read_file. destruct (A (update_path dir q)) as [->|(_ & _ & B)]; [intros E; by apply file_inj in E|intros E; symmetry in E; by apply crv_not_file in E|done|].
    by apply not_below_file in B. }
  rewrite E1, E2. destruct (A dir) as [->|(Z1 & Z2 & _)]; [intros E; symmetry in E; by apply file_not_base in E|intros E; symmetry in E; by apply crv_not_base in E|done|].
  rewrite Z1, Z2. assert (d !! period_dir dir q = None) as ->; [|by rewrite andb_false_r].
  unfold period_dir. apply tree_absent; [done|by rewrite Z1|done].
Qed.

(** A save that is not hindered is served. *)
Lemma mkdirs_below o d x r : forall p, tree d -> d !! (p ++ r)%list = Some Folder -> mkdirs o d p (r ++ [x]) = mkdirs o d (p ++ r)%list [x].
Proof.
  induction r as [|y r IH]; intros p T H; [by rewrite app_nil_r|]. cbn [app mkdirs].
  assert (d !! (p ++ [y])%list = Some Folder) as E.
  { destruct r as [|w r]; [done|]. destruct (decide (d !! (p ++ [y])%list = Some Folder)) as [|N]; [done|]. exfalso.
    pose proof (tree_absent d (p ++ [y])%list (w :: r) T N ltac:(done)) as Z. rewrite <- app_assoc in Z. cbn in Z. congruence. }
  rewrite E. rewrite IH; [by rewrite <- app_assoc|done|by rewrite <- app_assoc].
Qed.

Lemma made_dir o d dir p : tree d -> d !! dir = Some Folder -> os_create o (period_dir dir p) = true -> (forall t, d !! period_dir dir p <> Some (File t)) ->
  final d (create_dir o d (period_dir dir p)) = d /\ d !! period_dir dir p = Some Folder \/
  final d (create_dir o d (period_dir dir p)) = <[period_dir dir p := Folder]> d.
Proof.
  intros T D C N. unfold create_dir. destruct (d !! period_dir dir p) as [[t|]|] eqn:E; [by destruct (N t)|by left|]. right.
  unfold period_dir at 1. rewrite (mkdirs_below o d _ dir [] T D). cbn [app mkdirs]. change (dir ++ [("Period_" ++ p)%string])%list with (period_dir dir p).
  rewrite E. unfold mkdir. rewrite E. unfold parent, period_dir at 1. rewrite rev_app_distr. cbn [rev app]. rewrite rev_involutive, bool_decide_true by done.
  by rewrite C.
Qed.

Lemma file_parent dir p : exists q x, update_path dir p = (q ++ [x])%list /\ q = period_dir dir p.
Proof. exists (period_dir dir p), "ClientUpdate.json". split; [apply update_path_dir|done]. Qed.

Lemma last_app_ne {A} (l1 l2 : list A) a b : l2 <> [] -> List.last (l1 ++ l2)%list a = List.last l2 b.
Proof.
  intros N. induction l1 as [|x l1 IH]; cbn [app].
  - destruct l2 as [|y l]; [done|]. clear N. revert y. induction l as [|w l IH]; intros y; [done|]. apply IH.
  - rewrite <- IH. apply last_cons_last. destruct l1; [|done]. by destruct l2.
Qed.

Lemma served_after o d dir p u vs : tree d -> update_writable o d dir p -> lacks "/" p ->
  answer_update o (final d (saving_storage o d dir p u vs)) dir p = Some (served u).
Proof.
  intros T (D & M1 & M2 & C & O & NF) L. unfold saving_storage. change (dir ++ [("Period_" ++ p)%string])%list with (period_dir dir p) in *.
  set (d1 := final d (create_dir o d (period_dir dir p))).
  assert (d1 !! dir = Some Folder /\ d1 !! period_dir dir p = Some Folder /\ d1 !! update_path dir p <> Some Folder) as (E1 & E2 & E3).
  { unfold d1. destruct (made_dir o d dir p T D M1 M2) as [[-> E]| ->]; [done|]. rewrite lookup_insert, !lookup_insert_ne; [done|..].
    - intros E. symmetry in E. by apply file_not_dir in E.
    - apply dir_not_base. }
  set (d2 := create_file o d1 (update_path dir p)).
  assert (may_write o d1 (update_path dir p)) as W1.
  { split_and!; [done|done|done|]. destruct (file_parent dir p) as (q & x & E & ->). by exists (period_dir dir p), x. }
  assert (may_write o d2 (update_path dir p)) as W2.
  { unfold d2. destruct (create_file_states o d1 (update_path dir p)) as [->|[_ ->]]; [done|]. by apply may_write_other. }
  assert (d2 !! dir = Some Folder /\ d2 !! period_dir dir p = Some Folder) as (G1 & G2).
  { unfold d2. destruct (create_file_states o d1 (update_path dir p)) as [->|[_ ->]]; [done|].
    rewrite !lookup_insert_ne; [done|apply file_not_dir|apply file_not_base]. }
  rewrite (writing_final o d2 _ _ W2). unfold final. rewrite app_assoc, (last_app_ne _ _ d d) by apply writing_ne.
  set (d3 := <[update_path dir p:=File (write_data (update_json u))]> d2).
  pose proof (final_in d _ (writing_ne o d3 (crv_path dir) vs)) as H. unfold final in H. apply writing_only in H.
  rewrite answer_plain by done. unfold read_byte, read_file. rewrite O.
  rewrite (H dir), (H (period_dir dir p)), (H (update_path dir p)).
  - unfold d3. rewrite lookup_insert, !lookup_insert_ne, G1, G2 by (apply file_not_dir || apply file_not_base).
    rewrite !bool_decide_true by done. cbn [andb]. by rewrite update_read.
  - intros E. symmetry in E. by apply crv_not_file in E.
  - intros E. symmetry in E. by apply crv_not_dir in E.
  - intros E. symmetry in E. by apply crv_not_base in E.
Qed.

(** A plain request reads the file of its period only. *)
Lemma own_file o d dir p : tree d -> lacks "/" p ->
  answer_update o d dir p = match read_byte o d (update_path dir p) with Some t => served <$> update_unmarshal t | None => None end.
Proof.
  intros T L. rewrite answer_plain by done. unfold read_byte, read_file. destruct (os_open o (update_path dir p)); [|by destruct (_ && _)].
  destruct (d !! update_path dir p) as [[t|]|] eqn:E; [|by destruct (_ && _)|by destruct (_ && _)].
  assert (d !! period_dir dir p = Some Folder) as E1 by (apply (T _ "ClientUpdate.json"); by rewrite <- update_path_dir, E).
  assert (d !! dir = Some Folder) as E2 by (apply (T _ ("Period_" ++ p)); exact (mk_is_Some _ _ E1)).
  by rewrite !bool_decide_true.
Qed.

(** ** Configurations *)
Lemma configuration_interrupted o d p v d' : wf_json v -> structured v -> d' ∈ writing o d p (write_data v) ->
  load_configuration o d' p = load_configuration o d p \/ load_configuration o d' p = None \/ load_configuration o d' p = Some v.
Proof.
  intros W S H. apply writing_json in H as [->|(x & -> & H)]; [by left| |done|done].
  unfold load_configuration. destruct (os_open o p) eqn:O; [|left; by rewrite !read_shut].
  rewrite read_insert by done. destruct H as [->|H]; [right; right; by apply parse_write_data|by right; left].
Qed.

(** Gen/Gen.go:226-244 writes with os.WriteFile: the old contents never survive, and only the complete new ones are read. *)
Lemma generated_interrupted o d p v d' : wf_json v -> structured v -> d' ∈ rewriting o d p (gen_write v) ->
  d' !! p = Some (File (gen_write v)) \/ load_configuration o d' p = None.
Proof.
  intros W S H. apply rewriting_cases in H as (x & rest & -> & E). destruct rest as [|a rest].
  - rewrite app_nil_s in E. left. by rewrite lookup_insert, E.
  - right. unfold load_configuration. destruct (os_open o p) eqn:O; [|by rewrite read_shut]. rewrite read_insert by done.
    eapply (prefix_no_json " " (newline ++ " ") v); [by exists " "|done|done|by destruct v|exact E|done].
Qed.

Lemma configuration_read o d p v : wf_json v -> may_write o d p -> load_configuration o (final d (writing o d p (write_data v))) p = Some v.
Proof.
  intros W M. rewrite writing_final by done. unfold load_configuration. rewrite read_insert by apply M. by apply parse_write_data.
Qed.

Lemma generated_read o d p v : wf_json v -> may_write o d p -> load_configuration o (final d (rewriting o d p (gen_write v))) p = Some v.
Proof.
  intros W M. unfold final. destruct (rewriting_final o d p (gen_write v) d M) as [_ ->]. unfold load_configuration.
  rewrite read_insert by apply M. by apply parse_gen_write.
Qed.

Section crypto.
Context {P : prims} (K : keyio P) (o : os).

Lemma crypto_interrupted d p (c : cconf P) d' : rsa_json_ok K -> ints_ok c -> bls_pubs_ok K c -> bls_sec_ok K c -> bls_sec_deser K "" = None ->
  d' ∈ writing o d p (write_cconf K c) ->
  load_cconf K o d' p = load_cconf K o d p \/ (exists c', load_cconf K o d' p = Some (c', false)) \/ load_cconf K o d' p = Some (c, true).
Proof.
  intros R I1 I2 I3 Z H. apply writing_json in H as [->|(x & -> & H)]; [by left| |by apply scc_json_wf|done].
  unfold load_cconf. destruct (os_open o p) eqn:O; [|left; by rewrite !read_shut].
  rewrite read_insert by done. cbn. destruct H as [->|H].
  - right. right. f_equal. by apply config_round_trip.
  - right. left. pose proof (damaged_full K x H Z) as E. destruct (read_cconf K x) as [c' b]. cbn in E. subst b. by exists c'.
Qed.

Lemma verify_only_interrupted d p (c : cconf P) d' : rsa_json_ok K -> may_write o d p ->
  d' ∈ writing o d p (write_cconf K c) -> d' <> d -> d' <> final d (writing o d p (write_cconf K c)) ->
  exists v, load_verify_only K o d' p = Some (v, true) /\ cc_rsa_pubs v = ∅ /\ cc_bls_pubs v = ∅.
Proof.
  intros R M H N1 N2. rewrite (writing_final _ _ _ _ M) in N2.
  destruct (writing_between o d p _ d' (scc_json_wf K (new_stored K c) R) I M H) as [->|[->|(x & -> & E)]]; try done.
  unfold load_verify_only. rewrite read_insert by apply M. cbn. destruct (damaged_verify_only K x E) as (E1 & E2 & E3).
  destruct (read_verify_only K x) as [v b]. cbn in *. subst b. by exists v.
Qed.
End crypto.

(** ** Interruptions forget tree heads *)
Section forget.
Context {P : prims} (z : gzip) (c : cconf P) (o : os) (F : cfiles).

Lemma no_heads s crt : (forall m, h_sha256 P m <> "") -> cl_sth s = ∅ -> check_certificate c s crt <> Accept.
Proof.
  intros Hh E A. apply verdict_accept in A as (_ & (i & _ & _ & _ & x & p & _ & S & _) & _); [|done]. by rewrite E in S.
Qed.

Lemma emptied d p t : may_write o d p -> <[p := File ""]> d ∈ writing o d p t.
Proof.
  intros M. assert (<[p := File ""]> d ∈ rewriting o d p t) as R.
  { unfold rewriting. rewrite (may_create _ _ _ M). cbn [seq map].
    assert (written (<[p:=File ""]> d) p t 0 = <[p := File ""]> d) as ->; [|left].
    unfold written. rewrite insert_insert. f_equal. f_equal. by destruct t. }
  unfold writing. destruct (d !! p) as [e|].
  - pose proof M as (_ & O & _). rewrite O. by right.
  - rewrite (may_create _ _ _ M). right. by left.
Qed.

Lemma forgotten s d ls lc lp s0 : lists (cl_sth s) ls -> distinct F -> may_write o d (f_sth F) -> (forall m, h_sha256 P m <> "") ->
  client_start o d F = Some s0 ->
  exists d' s', d' ∈ saving_all o d F ls lc lp /\ client_start o d' F = Some s' /\ cl_sth s' = ∅ /\ cl_crv s' = cl_crv s0 /\
    forall crt, check_certificate c s' crt <> Accept.
Proof.
  intros L (N1 & _) M Hh S. exists (<[f_sth F := File ""]> d), (mkcl ∅ (cl_crv s0) ∅ false false false).
  split; [apply elem_of_app; left; by apply emptied|]. rewrite start_cases in *.
  rewrite (read_same o d (<[f_sth F := File ""]> d) (f_sth F) (f_crv F)); [|intros q N; by rewrite lookup_insert_ne|done].
  destruct (load_crv (read_byte o d (f_crv F))) as [m|]; [|done]. injection S as <-. rewrite read_insert by apply M.
  split_and!; [done|done|done|]. intros crt. by apply no_heads.
Qed.
End forget.

Section dead.
Context {P : prims} (z : gzip) (c : cconf P) (o : os) (F : cfiles).

(** Every save has a moment at which an interruption is fatal. *)
Lemma dead_in_saving s d ls lc lp : distinct F -> lists (cl_crv s) lc -> may_write o d (f_sth F) -> may_write o d (f_crv F) ->
  exists d', d' ∈ saving_all o d F ls lc lp /\ client_start o d' F = None.
Proof.
  intros (N1 & N2 & N3) L M1 M2. set (d1 := final d (writing o d (f_sth F) (write_data (sth_json ls)))).
  assert (may_write o d1 (f_crv F)) as M.
  { unfold d1. rewrite writing_final by done. apply may_write_other; [done|]. apply M1. }
  destruct (dead_moment o F s lc d1 L M) as [H1 H2]. exists (<[f_crv F := File ""]> d1). split; [|done].
  unfold saving_all. cbv zeta. apply elem_of_app. right. apply elem_of_app. left. exact H1.
Qed.

(** And it stays so until somebody repairs the file. *)
Lemma stays_dead d d' : client_start o d F = None -> d' !! f_crv F = d !! f_crv F -> client_start o d' F = None.
Proof.
  rewrite !start_cases. unfold read_byte, read_file. intros H ->. by destruct (load_crv _).
Qed.

(** A client that saved everything and saves it again. *)
Lemma saving_again s d ls lc lp : life z c o F s d -> distinct F -> lists (cl_sth s) ls -> lists (cl_crv s) lc -> lists (cl_pom s) lp ->
  may_write o d (f_sth F) -> may_write o d (f_crv F) -> may_write o d (f_pom F) -> (forall m, h_sha256 P m <> "") ->
  let d1 := final d (saving_all o d F ls lc lp) in
  (exists s1, client_start o d1 F = Some s1 /\ cl_sth s1 = cl_sth s /\ cl_crv s1 = cl_crv s) /\
  (exists d2, d2 ∈ saving_all o d1 F ls lc lp /\ client_start o d2 F = None) /\
  exists d2 s2, d2 ∈ saving_all o d1 F ls lc lp /\ client_start o d2 F = Some s2 /\ cl_sth s2 = ∅ /\ forall crt, check_certificate c s2 crt <> Accept.
Proof.
  intros L D L1 L2 L3 M1 M2 M3 Hh d1.
  destruct (saved_found z c o F s d ls lc lp L D L1 L2 L3 M1 M2 M3) as (s1 & S1 & _ & E1 & E2 & _). fold d1 in S1.
  assert (forall p, may_write o d p -> may_write o d1 p) as K.
  { intros p M. unfold d1. rewrite saving_final by done. destruct D as (D1 & D2 & D3).
    apply may_write_other; [apply may_write_other; [apply may_write_other; [done|apply M1]|]|].
    - rewrite lookup_insert_ne by done. apply M2.
    - rewrite !lookup_insert_ne by done. apply M3. }
  split_and!.
  - by exists s1.
  - apply (dead_in_saving s); auto.
  - destruct (forgotten c o F s d1 ls lc lp s1) as (d2 & s2 & H1 & H2 & H3 & _ & H4); eauto. by exists d2, s2.
Qed.
End dead.
