(** Examples and counterexamples about files. *)
From Verif Require Import Bytes Base64 Pem Disk SpecDisk Cert CertPool.
Open Scope string_scope.

(** An operating system that permits everything and lists directories in some order. *)
Definition child (p q : fpath) : option string :=
  match rev q with x :: r => if bool_decide (rev r = p) then Some x else None | [] => None end.

Definition plain_list (d : fs) (p : fpath) : list string :=
  elements (list_to_set (omap (child p) (elements (dom d))) : gset string).

Definition plain_os : os := mkos (λ _, true) (λ _, true) (λ _, true) plain_list.

Lemma child_spec p q x : child p q = Some x <-> q = (p ++ [x])%list.
Proof.
  unfold child. split.
  - destruct (rev q) as [|y r] eqn:E; [discriminate|].
    destruct (bool_decide_reflect (rev r = p)) as [Hr|]; [|discriminate]. intros [= ->].
    rewrite <- (rev_involutive q), E. cbn. by rewrite Hr.
  - intros ->. rewrite rev_app_distr. cbn. by rewrite rev_involutive, bool_decide_eq_true_2.
Qed.

Lemma plain_lists c o r : lists_entries (mkos c o r plain_list).
Proof.
  intros d p. split; [apply NoDup_elements|]. intros x. cbn [os_list]. unfold plain_list.
  rewrite elem_of_elements, elem_of_list_to_set, elem_of_list_omap. split.
  - intros (q & Hq & Hc). apply elem_of_elements, elem_of_dom in Hq. apply child_spec in Hc. by subst q.
  - intros H. exists (p ++ [x])%list. split; [by apply elem_of_elements, elem_of_dom|]. by apply child_spec.
Qed.

(** A small file system. *)
Definition home : fs :=
  <[[] := Folder]> (<[["data"] := Folder]> (<[["data"; "m1"] := Folder]> (<[["data"; "m1"; "CRV.json"] := File "{}"]>
  (<[["data"; "m1"; "1"] := Folder]> (<[["data"; "m1"; "1"; "STH.json"] := File "[]"]> (<[["data"; "m2"] := Folder]>
  (<[["a.crt"] := File (pem_encode "CERTIFICATE" "old")]> ∅))))))).

(** Is every entry in a directory? *)
Definition tree_b (d : fs) : bool :=
  forallb (λ q, match rev q with [] => true | _ :: r => bool_decide (d !! rev r = Some Folder) end) (elements (dom d)).

Lemma tree_b_sound d : tree_b d = true -> tree d.
Proof.
  unfold tree_b. intros H p x Hx. rewrite forallb_forall in H.
  assert (Hi : In (p ++ [x])%list (elements (dom d))) by (by apply elem_of_list_In, elem_of_elements, elem_of_dom).
  specialize (H _ Hi). rewrite rev_app_distr in H. cbn in H. rewrite rev_involutive in H. by apply bool_decide_eq_true_1 in H.
Qed.

Lemma home_tree : tree home.
Proof. apply tree_b_sound. by vm_compute. Qed.

(** Keys are their own encoding; one of them cannot be encoded. *)
Definition toy_pkcs8 : pkcs8 := mkpkcs8 string (λ k, if String.eqb k "bad" then None else Some k) (λ s, Some (Some s)).

Lemma toy_pkcs8_ok : pkcs8_ok toy_pkcs8.
Proof. intros k bs. cbn. destruct (String.eqb k "bad"); [discriminate|]. by intros [= ->]. Qed.

(** The old certificate is gone while a new one is being written. *)
Lemma save_not_atomic : exists o d bs old p d',
  read_certificate d p = Some old /\ snd (save_certificate o d bs p) = true /\
  d' ∈ saving o d (pem_encode "CERTIFICATE" bs) p /\ read_certificate d' p = None.
Proof.
  exists plain_os, home, "new", "old", ["a.crt"], (written (<[["a.crt"] := File ""]> home) ["a.crt"] (pem_encode "CERTIFICATE" "new") 30).
  split; [by vm_compute|]. split; [by vm_compute|]. split; [|by vm_compute].
  apply (elem_of_list_lookup_2 _ 31). unfold saving.
  assert (E : create plain_os home ["a.crt"] = Some (<[["a.crt"] := File ""]> home)) by reflexivity.
  rewrite E. cbn [lookup list_lookup]. change (map ?f ?l !! 30) with ((f <$> l) !! 30). rewrite list_lookup_fmap.
  rewrite lookup_seq_lt by (vm_compute; lia). done.
Qed.

(** A key that cannot be encoded wipes out the key that was there. *)
Lemma key_lost : exists (K : pkcs8) o d k old p,
  pkcs8_ok K /\ read_key K d p = Some old /\ snd (save_key K o d k p) = false /\ read_key K (fst (save_key K o d k p)) p = None.
Proof.
  exists toy_pkcs8, plain_os, (fst (save_key toy_pkcs8 plain_os home "k1" ["a.key"])), "bad", "k1", ["a.key"].
  split; [apply toy_pkcs8_ok|]. split; [by vm_compute|]. split; by vm_compute.
Qed.

(** A private key is read as a certificate. *)
Lemma key_as_certificate : exists (K : pkcs8) o d k p d',
  pkcs8_ok K /\ save_key K o d k p = (d', true) /\ exists bs, read_certificate d' p = Some bs /\ pk_marshal K k = Some bs.
Proof.
  exists toy_pkcs8, plain_os, home, "k1", ["a.key"], (fst (save_key toy_pkcs8 plain_os home "k1" ["a.key"])).
  split; [apply toy_pkcs8_ok|]. split; [reflexivity|]. exists "k1". split; by vm_compute.
Qed.

(** A file with a comment, a certificate, a key, text that is no certificate, and the certificate again. *)
Definition toy_parse (s : string) : option cert :=
  if String.eqb s "junk" then None else Some (mkcert s s s "" s "" "" "" "" 0 "" [] [] "").
Definition toy_items : list item :=
  [mkitem (Some "# root") "CERTIFICATE" "c1"; mkitem None "PRIVATE KEY" "k"; mkitem (Some "") "CERTIFICATE" "junk";
   mkitem None "CERTIFICATE" "c1"; mkitem None "CERTIFICATE" "c2"].

Lemma toy_items_ok : Forall item_ok toy_items.
Proof. repeat (apply List.Forall_cons; [unfold item_ok; cbn; repeat split; discriminate|]). apply List.Forall_nil. Qed.
