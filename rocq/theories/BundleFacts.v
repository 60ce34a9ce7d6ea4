(** Facts about files of certificates. *)
From Verif Require Import Bytes Base64 Pem PemFacts Cert CertPool SpecCert CertFacts Bundle Disk SpecDisk.
From Coq Require Import Lia.
Open Scope string_scope.

Lemma lacks_sall c s : lacks c s <-> sall (isnt c) s = true.
Proof.
  induction s as [|d s IH]; [done|]. cbn [lacks sall]. rewrite andb_true_iff, <- IH. unfold isnt.
  destruct (Ascii.eqb_spec d c); cbn; naive_solver.
Qed.

Lemma type_lacks ty : lacks "-" ty -> lacks ":" ty -> lacks "010" ty -> sall type_ok ty = true.
Proof.
  rewrite !lacks_sall. induction ty as [|c r IH]; [done|]. cbn [sall]. rewrite !andb_true_iff. unfold type_ok.
  intros [-> ?] [-> ?] [-> ?]. auto.
Qed.

(** An item is decoded, whatever follows. *)
Lemma decode_item i r : item_ok i -> pem_decode (item_text i ++ r) = Some (mkblock (it_type i) false (it_bytes i), r).
Proof.
  intros (Hc & H1 & H2 & H3). assert (Ht := type_lacks _ H1 H2 H3). unfold item_text.
  destruct (it_comment i) as [c|]; [|by apply decode_encode].
  rewrite (app_assoc_s (c ++ nl)). apply decode_comment; [done|]. by apply lacks_sall.
Qed.

Lemma item_nonempty i r : is_empty (item_text i ++ r) = false.
Proof. unfold item_text. destruct (it_comment i) as [[|]|]; done. Qed.

Lemma encode_len ty bs : 20 <= len (pem_encode ty bs).
Proof. unfold pem_encode, len. rewrite !length_app_s. cbn. lia. Qed.

Lemma append_bundle parse l : Forall item_ok l -> forall n s ok t, len (bundle l ++ t) < n ->
  (is_empty t = false -> pem_decode t = None) ->
  append_rec parse n s ok (bundle l ++ t) =
    (fold_left add_cert (bundled parse l) s, ok || negb (bool_decide (bundled parse l = []))).
Proof.
  induction 1 as [|i l Hi Hl IH]; intros n s ok t Hn Ht.
  - destruct n as [|n]; [lia|]. cbn [bundle fold_right String.append append_rec].
    destruct (is_empty t) eqn:E; [|rewrite (Ht eq_refl)]; cbn; by rewrite orb_false_r.
  - destruct n as [|n]; [lia|]. cbn [bundle fold_right] in *. fold (bundle l) in *. rewrite app_assoc_s in *.
    cbn [append_rec]. rewrite item_nonempty, decode_item by done. cbn [pb_type pb_headers pb_bytes].
    assert (Hn' : len (bundle l ++ t) < n).
    { unfold len in *. rewrite !length_app_s in *. unfold item_text in Hn. rewrite length_app_s in Hn.
      assert (H := encode_len (it_type i) (it_bytes i)). unfold len in H. lia. }
    rewrite orb_false_r. unfold bundled. cbn [omap list_omap]. fold (bundled parse l).
    destruct (String.eqb (it_type i) "CERTIFICATE"); cbn [negb]; [|by apply IH].
    destruct (parse (it_bytes i)) as [c|]; [|by apply IH].
    rewrite (IH n (add_cert s c) true t Hn' Ht). cbn [fold_left]. by rewrite orb_true_r.
Qed.

(** Nothing is found in text without a BEGIN marker. *)
Lemma no_marker_none t : (forall a r, t <> a ++ "-----BEGIN " ++ r) -> pem_decode t = None.
Proof.
  intros H. unfold pem_decode. cbn [pem_loop].
  destruct (strip_prefix pem_start t) as [r|] eqn:E1.
  { apply strip_prefix_some in E1. by destruct (H "" r). }
  destruct (cut (nl ++ pem_start) t) as [[a r]|] eqn:E2; [|done].
  apply cut_some in E2. destruct (H (a ++ nl) r). rewrite E2, !app_assoc_s. done.
Qed.

Lemma append_exact parse s l t : Forall item_ok l -> (forall a r, t <> a ++ "-----BEGIN " ++ r) ->
  append_pem parse s (bundle l ++ t) =
    (fold_left add_cert (bundled parse l) s, negb (bool_decide (bundled parse l = []))).
Proof.
  intros Hl Ht. unfold append_pem. rewrite (append_bundle parse l Hl); [done|lia|].
  intros _. by apply no_marker_none.
Qed.

(** In terms of the contents of the pool. *)
Lemma append_contents parse l0 l t : Forall item_ok l -> (forall a r, t <> a ++ "-----BEGIN " ++ r) ->
  let r := append_pem parse (add_all l0) (bundle l ++ t) in
  get_certs (fst r) = first_copies (l0 ++ bundled parse l) /\ (snd r = true <-> bundled parse l <> []).
Proof.
  intros Hl Ht. cbn zeta. rewrite (append_exact parse _ l t Hl Ht). cbn [fst snd]. split.
  - unfold add_all. rewrite <- fold_left_app. exact (proj2 (add_all_spec _)).
  - rewrite negb_true_iff, bool_decide_eq_false. done.
Qed.
