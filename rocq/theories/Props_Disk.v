(** Files, directories and mass revocations. *)
From Verif Require Import Bytes Base64 Pem PemFacts Disk SpecDisk DiskFacts RefuteDisk Cert CertPool SpecCert Bundle BundleFacts.
From Verif Require Import Bitset CTngExt Revocation SpecCA Sample SampleFacts.
Open Scope string_scope.

(** C95: a certificate saved to a file is read back from it unchanged (the file is one PEM block of the right type), whatever the file contained before, and no other
    file changes ... *)
Theorem C95_certificate o d bs p d' : save_certificate o d bs p = (d', true) ->
  read_certificate d' p = Some bs /\ (exists t, read_file d' p = Some t /\ pem_decode t = Some (mkblock "CERTIFICATE" false bs, "")) /\
  forall q, q <> p -> d' !! q = d !! q.
Proof. exact (@certificate_back o d bs p d'). Qed.
Print Assumptions C95_certificate.

(** ... likewise a key ... *)
Theorem C95_key K o d k p d' : pkcs8_ok K -> save_key K o d k p = (d', true) ->
  read_key K d' p = Some k /\ (exists t bs, read_file d' p = Some t /\ pem_decode t = Some (mkblock "PRIVATE KEY" false bs, "") /\ pk_marshal K k = Some bs) /\
  forall q, q <> p -> d' !! q = d !! q.
Proof. exact (@key_back K o d k p d'). Qed.
Print Assumptions C95_key.

(** ... and saving works if the directory exists, the path is not a directory and the file may be written. *)
Theorem C95_saved o d bs p x : d !! p = Some Folder -> d !! (p ++ [x])%list <> Some Folder ->
  os_create o (p ++ [x])%list = true -> snd (save_certificate o d bs (p ++ [x])) = true.
Proof. exact (@certificate_saved o d bs p x). Qed.
Print Assumptions C95_saved.

Example C95_ex : pkcs8_ok toy_pkcs8 /\ snd (save_certificate plain_os home "new" ["a.crt"]) = true /\
  read_certificate home ["a.crt"] = Some "old" /\ read_certificate (fst (save_certificate plain_os home "new" ["a.crt"])) ["a.crt"] = Some "new" /\
  snd (save_key toy_pkcs8 plain_os home "k" ["data"; "b.key"]) = true.
Proof. split; [apply toy_pkcs8_ok|]. repeat split; by vm_compute. Qed.

(** C96: wherever saving a certificate is interrupted, the file afterwards is as before, or cannot be read as a certificate, or holds the new
    certificate; other files are as before. *)
Theorem C96_never_corrupt o d bs p d' : d' ∈ saving o d (pem_encode "CERTIFICATE" bs) p ->
  (forall q, q <> p -> d' !! q = d !! q) /\
  (d' = d \/ read_certificate d' p = None \/ read_certificate d' p = Some bs).
Proof. exact (@saving_states o d bs p d'). Qed.
Print Assumptions C96_never_corrupt.

Example C96_ex : length (saving plain_os home (pem_encode "CERTIFICATE" "new") ["a.crt"]) = 61 /\
  read_certificate (written (<[["a.crt"] := File ""]> home) ["a.crt"] (pem_encode "CERTIFICATE" "new") 40) ["a.crt"] = None /\
  read_certificate (written (<[["a.crt"] := File ""]> home) ["a.crt"] (pem_encode "CERTIFICATE" "new") 58) ["a.crt"] = Some "new".
Proof. repeat split; by vm_compute. Qed.

(** C97: a save that fails or is interrupted leaves the file as it was - REFUTED: the file is emptied first ... *)
Theorem C97_interrupted_refuted : exists o d bs old p d',
  read_certificate d p = Some old /\ snd (save_certificate o d bs p) = true /\
  d' ∈ saving o d (pem_encode "CERTIFICATE" bs) p /\ read_certificate d' p = None.
Proof. exact save_not_atomic. Qed.
Print Assumptions C97_interrupted_refuted.

(** ... even before it is known whether the key can be encoded ... *)
Theorem C97_failed_refuted : exists (K : pkcs8) o d k old p,
  pkcs8_ok K /\ read_key K d p = Some old /\ snd (save_key K o d k p) = false /\ read_key K (fst (save_key K o d k p)) p = None.
Proof. exact key_lost. Qed.
Print Assumptions C97_failed_refuted.

(** ... true for certificates if the file cannot be opened for writing. *)
Theorem C97_refused_partial o d bs p d' : save_certificate o d bs p = (d', false) -> d' = d.
Proof. exact (@certificate_refused o d bs p d'). Qed.
Print Assumptions C97_refused_partial.

Example C97_ex : save_certificate plain_os home "new" ["data"] = (home, false) /\ save_certificate plain_os home "new" ["x"; "y"] = (home, false).
Proof. split; reflexivity. Qed.

(** C98: reading a certificate fails if the file holds something else - REFUTED: a private key is returned as a certificate ... *)
Theorem C98_refuted : exists (K : pkcs8) o d k p d',
  pkcs8_ok K /\ save_key K o d k p = (d', true) /\ exists bs, read_certificate d' p = Some bs /\ pk_marshal K k = Some bs.
Proof. exact key_as_certificate. Qed.
Print Assumptions C98_refuted.

(** ... true if the file contains no BEGIN marker. *)
Theorem C98_no_marker_partial d p t : d !! p = Some (File t) -> (forall a r, t <> a ++ "-----BEGIN " ++ r) -> read_certificate d p = None.
Proof. exact (@no_marker d p t). Qed.
Print Assumptions C98_no_marker_partial.

Example C98_ex : home !! ["data"; "m1"; "CRV.json"] = Some (File "{}") /\ forall a r, "{}" <> a ++ "-----BEGIN " ++ r.
Proof.
  split; [reflexivity|]. intros a r. destruct a as [|c [|e a]]; [discriminate|discriminate|]. cbn. intros [= _ _ H]. by destruct a.
Qed.

(** C99: from a file of certificates (comments, certificates, other blocks, other text at the end) exactly the certificates
    that can be parsed get into the pool, in their order and each once; the result says whether there was one. *)
Theorem C99_bundle parse l0 l t : Forall item_ok l -> (forall a r, t <> a ++ "-----BEGIN " ++ r) ->
  let r := append_pem parse (add_all l0) (bundle l ++ t) in
  get_certs (fst r) = first_copies (l0 ++ bundled parse l) /\ (snd r = true <-> bundled parse l <> []).
Proof. exact (@append_contents parse l0 l t). Qed.
Print Assumptions C99_bundle.

Example C99_ex : Forall item_ok toy_items /\ (forall a r, "" <> a ++ "-----BEGIN " ++ r) /\
  map c_raw (get_certs (fst (append_pem toy_parse (add_all []) (bundle toy_items ++ "")))) = ["c1"; "c2"].
Proof. split; [apply toy_items_ok|]. split; [by intros [] ?|]. by vm_compute. Qed.

(** C100: deleting a storage directory touches nothing outside it, and changes and creates nothing ... *)
Theorem C100_only o d p q : lists_entries o ->
  let d' := fst (delete_tree o d p) in d' !! q = d !! q \/ (below p q /\ d' !! q = None).
Proof. intros Ho. exact (@delete_only o Ho d p q). Qed.
Print Assumptions C100_only.

(** ... after success exactly the directory and everything in it, at any depth, is gone ... *)
Theorem C100_all o d p : lists_entries o -> tree d -> snd (delete_tree o d p) = true -> forall q,
  (below p q -> fst (delete_tree o d p) !! q = None) /\ (~ below p q -> fst (delete_tree o d p) !! q = d !! q).
Proof. intros Ho. exact (@delete_all o Ho d p). Qed.
Print Assumptions C100_all.

(** ... it succeeds if the path is a directory and the operating system refuses nothing ... *)
Theorem C100_succeeds o d p : lists_entries o -> tree d -> d !! p = Some Folder -> unhindered o p -> snd (delete_tree o d p) = true.
Proof. intros Ho. exact (@delete_succeeds o Ho d p). Qed.
Print Assumptions C100_succeeds.

(** ... and anything else than a directory is left alone. *)
Theorem C100_not_directory o d p : d !! p <> Some Folder -> delete_tree o d p = (d, false).
Proof. exact (@delete_not_folder o d p). Qed.
Print Assumptions C100_not_directory.

Example C100_ex : lists_entries plain_os /\ tree home /\ home !! ["data"; "m1"] = Some Folder /\ unhindered plain_os ["data"; "m1"] /\
  fst (delete_tree plain_os home ["data"; "m1"]) !! ["data"; "m1"; "1"; "STH.json"] = None /\
  fst (delete_tree plain_os home ["data"; "m1"]) !! ["data"; "m2"] = Some Folder.
Proof. split; [apply plain_lists|]. split; [apply home_tree|]. repeat split; by vm_compute. Qed.

(** C101: if a mass revocation of [want] of [total] certificates comes to an end, exactly [want] different numbers below [total] are
    revoked in addition, and the length of the vector and the previous vector stay. *)
Theorem C101_mass_revocation want (total : N) draws v v' :
  (forall i, N.testbit (bs_bits (v_cur v)) i = true -> (i < bs_len (v_cur v))%N) -> (total <= bs_len (v_cur v))%N ->
  (forall i, i ∈ draws -> (i < total)%N) -> mass_revoke want draws v = Some v' ->
  exists l, NoDup l /\ length l = want /\ (forall i, i ∈ l -> (i < total)%N) /\
    (forall i, revokes (v_cur v') i <-> revokes (v_cur v) i \/ i ∈ l) /\
    bs_len (v_cur v') = bs_len (v_cur v) /\ v_pre v' = v_pre v.
Proof. exact (@mass_revoke_exact want total draws v v'). Qed.
Print Assumptions C101_mass_revocation.

Example C101_ex : let v := mkcrv (bs_set (bs_new 10) 3) (Some (bs_new 10)) in
  exists v', mass_revoke 2 [7; 7; 3; 1]%N v = Some v' /\ v_cur v' = mkbs 10 136.
Proof. eexists. split; [reflexivity|]. reflexivity. Qed.

(** C102: a mass revocation comes to an end - REFUTED: never, if more certificates are to be revoked than there are (ratio above 1) ... *)
Theorem C102_refuted want (total : N) draws v : (forall i, i ∈ draws -> (i < total)%N) -> N.to_nat total < want ->
  mass_revoke want draws v = None.
Proof. exact (@mass_never want total draws v). Qed.
Print Assumptions C102_refuted.

(** ... it does as soon as [want] different numbers have been drawn. *)
Theorem C102_ends_partial want draws v (k : list N) : NoDup k -> want <= length k -> (forall i, i ∈ k -> i ∈ draws) ->
  is_Some (mass_revoke want draws v).
Proof. exact (@mass_ends want draws v k). Qed.
Print Assumptions C102_ends_partial.

Example C102_ex : NoDup [7; 1]%N /\ forall i, i ∈ [7; 1]%N -> i ∈ [7; 7; 3; 1]%N.
Proof.
  split; [apply NoDup_cons; split; [intros H%elem_of_list_singleton; discriminate|apply NoDup_singleton]|].
  intros i Hi. set_solver.
Qed.
