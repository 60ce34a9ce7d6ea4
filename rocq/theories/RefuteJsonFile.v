(** Examples and counterexamples about JSON files. *)
From Verif Require Import Bytes Base64 Json JsonFacts Types Crypto Verify Toy Bitset Revocation Cert CryptoIO RefuteIO Disk SpecDisk RefuteDisk Monitor MonitorMore Client SpecClient RefuteCA RefuteClient.
From Verif Require Import IndentFacts JsonPrefix JsonFile SpecJsonFile JsonFileFacts StoryFacts.
Open Scope string_scope.

(** The files of a client, in a directory with nothing else. *)
Definition client_files : cfiles := mkcfiles ["c"; "STH.json"] ["c"; "CRV.json"] ["c"; "POM.json"].
Definition client_home : fs := <[[] := Folder]> (<[["c"] := Folder]> ∅).

Lemma client_files_distinct : distinct client_files.
Proof. repeat split; discriminate. Qed.

Lemma plain_may d p q x : p = (q ++ [x])%list -> d !! p <> Some Folder -> d !! q = Some Folder -> may_write plain_os d p.
Proof. intros -> H1 H2. split_and!; [done|done|done|]. by exists q, x. Qed.

Lemma client_writable : may_write plain_os client_home (f_sth client_files) /\ may_write plain_os client_home (f_crv client_files) /\
  may_write plain_os client_home (f_pom client_files).
Proof. split_and!; (eapply (plain_may _ _ ["c"]); [reflexivity| |reflexivity]); by vm_compute. Qed.

Lemma good_life d : life toy_z toy_clc plain_os client_files (good_client 12) d.
Proof.
  apply (life_update _ _ _ _ fresh_client _ true (good_upd 12) _ (result fresh_client (good_upd 12))).
  - constructor.
  - unfold good_client, after, result. apply surjective_pairing.
  - rewrite good_applied. discriminate.
Qed.

Lemma lists_self {A} (m : gmap string A) : lists m (map_to_list m).
Proof. unfold lists. reflexivity. Qed.

(** The text [t] as the update for period 8 of monitor 2, next to monitor 1. *)
Definition two_monitors (t : string) : fs :=
  <[["m"; "2"; "Period_8"; "ClientUpdate.json"] := File t]> (<[["m"; "2"; "Period_8"] := Folder]> (<[["m"; "2"] := Folder]>
  (<[["m"; "1"; "Period_7"] := Folder]> (<[["m"; "1"] := Folder]> (<[["m"] := Folder]> (<[[] := Folder]> ∅)))))).

Definition climbing : string := "7/../../2/Period_8".

Lemma two_monitors_tree t : tree (two_monitors t).
Proof. apply tree_b_sound. by vm_compute. Qed.

Lemma climbs t : resolve (two_monitors t) ["m"; "1"] (components ("Period_" ++ climbing ++ "/ClientUpdate.json")) =
  Some ["m"; "2"; "Period_8"; "ClientUpdate.json"].
Proof. by vm_compute. Qed.

(** A monitor serves the update of another monitor. *)
Lemma other_monitor u : answer_update plain_os (two_monitors (write_data (update_json u))) ["m"; "1"] climbing = Some (served u) /\
  forall p t, two_monitors (write_data (update_json u)) !! (["m"; "1"] ++ p)%list <> Some (File t).
Proof.
  split.
  - unfold answer_update. rewrite climbs. unfold read_byte, read_file.
    assert (forall t, two_monitors t !! ["m"; "2"; "Period_8"; "ClientUpdate.json"] = Some (File t)) as E
      by (intros t; unfold two_monitors; apply lookup_insert).
    rewrite E. cbn [plain_os os_open]. by rewrite update_read.
  - intros p t. cbn [app]. unfold two_monitors. generalize (write_data (update_json u)). intros w.
    rewrite lookup_insert_ne by discriminate. rewrite !lookup_insert_Some. intros H.
    repeat (destruct H as [[_ H]|[_ H]]; [discriminate|]). by rewrite lookup_empty in H.
Qed.

(** Saving and serving. *)
Lemma saved_home_writable : update_writable plain_os home ["data"; "m1"] "7".
Proof. by vm_compute. Qed.

(** Moments of writing a configuration: the file created, a part, the whole. *)
Lemma some_moments : length (writing plain_os home ["a.json"] (write_data (JArr []))) = 5 /\
  length (writing plain_os home ["data"; "m1"; "CRV.json"] (write_data (JArr []))) = 4 /\
  load_configuration plain_os home ["data"; "m1"; "CRV.json"] = Some (JObj []) /\
  ((λ d, load_configuration plain_os d ["data"; "m1"; "CRV.json"]) <$> writing plain_os home ["data"; "m1"; "CRV.json"] (write_data (JArr []))) =
  [Some (JObj []); None; None; Some (JArr [])].
Proof. repeat split; by vm_compute. Qed.

(** A client that has handled an update, saved its databases and was started again. *)
Lemma good_story d : d !! f_sth client_files = None -> d !! f_crv client_files = None ->
  story toy_z toy_clc plain_os client_files [(true, good_upd 12)] (good_client 12) d.
Proof.
  intros H1 H2. apply (story_update _ _ _ _ [] fresh_client _ true (good_upd 12) _ (result fresh_client (good_upd 12))).
  - by constructor.
  - unfold good_client, after, result. apply surjective_pairing.
  - rewrite good_applied. discriminate.
Qed.

Lemma same_checks {P : prims} (c : cconf P) s s' crt : cl_sth s' = cl_sth s -> cl_crv s' = cl_crv s -> cl_pom s' = cl_pom s ->
  check_certificate c s' crt = check_certificate c s crt.
Proof.
  intros E1 E2 E3. unfold check_certificate. rewrite E2.
  assert (forall l, count_faulty c s' crt l = count_faulty c s crt l) as E; [|by rewrite E].
  induction l as [|i l IH]; [done|]. cbn [count_faulty]. rewrite IH. unfold logger_faulty. by rewrite E1, E3.
Qed.

Lemma good_pom : cl_pom (good_client 12) = ∅.
Proof. by vm_compute. Qed.

Lemma restarted : exists s d, story toy_z toy_clc plain_os client_files [(true, good_upd 12)] s d /\ check_certificate toy_clc s (good_cert 12) = Accept /\
  is_Some (d !! f_crv client_files) /\ (forall u, (false, u) ∉ [(true, good_upd 12)]).
Proof.
  destruct client_writable as (M1 & M2 & M3).
  assert (story toy_z toy_clc plain_os client_files [(true, good_upd 12)] (good_client 12) client_home) as S by by apply good_story.
  destruct (saved_found toy_z toy_clc plain_os client_files _ client_home _ _ _ (good_life _) client_files_distinct (lists_self _) (lists_self _) (lists_self _) M1 M2 M3)
    as (s' & S' & _ & E1 & E2 & _).
  eexists s', _. split; [|split; [|split]].
  - eapply story_interrupted; [exact S|apply lists_self|apply lists_self|apply lists_self|apply final_saving|exact S'].
  - rewrite (same_checks _ (good_client 12)); [exact good_accepted|exact E1|exact E2|]. rewrite good_pom. exact (start_pom _ _ _ _ S').
  - rewrite saving_final by done. generalize (write_data (crv_json (map_to_list (cl_crv (good_client 12))))). intros t.
    exists (File t). rewrite lookup_insert_ne by discriminate. apply lookup_insert.
  - intros u H. apply elem_of_list_singleton in H. discriminate.
Qed.
