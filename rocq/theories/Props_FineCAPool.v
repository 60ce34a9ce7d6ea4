(** Properties of the certificates of a CA whose tasks and handlers interleave. *)
From Verif Require Import Bytes Json Types Crypto Verify SpecCodec Merkle Cert CertPool CTngExt Clock SpecCert Bitset Revocation CA SpecCA FineCA SpecFineCA SpecFineKept FineCAFinal FineCAKept.
From Verif Require Import RefuteCA RefuteFineCA RefuteFineCAPool Toy.
Open Scope string_scope.

(* ---------------------------------------------------------------- *)
(** C152: in every interleaving, a certificate in the pool, or a final one that would be signed now, is one that was signed, with its names, key and identifier; every proof in it was received and is for its key, the tree head filed
    with the proof is empty or a received, verified one of the same logger; and no logger is listed twice ... *)
Theorem C152_sources_partial {P : prims} x z (c : caconf P) cc : std_ok x -> forall ty k d1 d2 l crt, let y0 := fc_init x c ty k d1 d2 in
  fine_sizes x z c cc y0 l -> (Z.of_nat (length (signed (snd (cfrun x z c cc y0 l)))) < int64_max)%Z ->
  crt ∈ get_certs (a_pool (fc_st (fst (cfrun x z c cc y0 l)))) \/ crt ∈ sign_all x c (fc_st (fst (cfrun x z c cc y0 l))) ->
  (exists f, f ∈ signed (snd (cfrun x z c cc y0 l)) /\ same_subject crt f /\ cert_rid crt = cert_rid f) /\
  (forall i, i ∈ x_infos (parse_ctng crt) -> info_from cc l i /\ poi_ski (li_poi i) = c_ski crt) /\
  NoDup (map (λ i, g_signer (li_sth i)) (x_infos (parse_ctng crt))).
Proof. exact (λ Hx ty k d1 d2 l crt, @contents_from P x z c cc Hx ty k d1 d2 l crt). Qed.
Print Assumptions C152_sources_partial.

(** REFUTED: that every proof received is in its certificate.  Of two proofs that are handled at once, one is lost; it is kept when they are handled in turn. *)
Theorem C152_lost_refuted : let infos l := map (λ f, map (λ i, g_signer (li_sth i)) (x_infos (parse_ctng f)))
    (get_certs (a_pool (fc_st (fst (cfrun toy_x toy_z toy_ca (toy_cc "localhost:9000" 0) toy_fc0 l))))) in
  infos in_turn = [["localhost:9100"; "localhost:9101"]] /\ infos at_once = [["localhost:9101"]].
Proof. exact proofs_shown. Qed.
Print Assumptions C152_lost_refuted.

(** What is lost is only what is lost that way: an entry in the pool's certificate for a key is there after every continuation in which the pool is not replaced,
    if no handler that has already read the certificate without that entry still has to write it back. *)
Theorem C152_kept_partial {P : prims} x z (c : caconf P) cc : std_ok x -> forall ty k0 d1 d2 l1 l2 k i,
  let y0 := fc_init x c ty k0 d1 d2 in let y := fst (cfrun x z c cc y0 l1) in
  fine_sizes x z c cc y0 (l1 ++ l2) -> (Z.of_nat (length (signed (snd (cfrun x z c cc y0 (l1 ++ l2))))) < int64_max)%Z ->
  entered y k i -> (forall crt, PWrite k crt ∈ fc_go y -> i ∈ x_infos (parse_ctng crt)) -> no_clear x z c cc y l2 ->
  entered (fst (cfrun x z c cc y0 (l1 ++ l2))) k i.
Proof. exact (λ Hx ty k0 d1 d2 l1 l2 k i, @kept_entry P x z c cc Hx ty k0 d1 d2 l1 l2 k i). Qed.
Print Assumptions C152_kept_partial.

(** And a proof gets into its certificate if its handler is not overlapped: when the three steps of the handler of a received proof [q] follow each other, the pool's certificate for its key
    then has [q], filed with the tree head held for its logger, unless it already lists a head of that signer. *)
Theorem C152_filed_partial {P : prims} x z (c : caconf P) cc : std_ok x -> forall ty k0 d1 d2 l n q crt m1 p1 m2 p2 m3 p3,
  let y0 := fc_init x c ty k0 d1 d2 in let y := fst (cfrun x z c cc y0 l) in
  let l' := [FRun n m1 p1; FRun n m2 p2; FRun n m3 p3] in let g := Logger.obj_at (a_sths (fc_st y)) (poi_logger q) in
  fine_sizes x z c cc y0 (l ++ l') -> (Z.of_nat (length (signed (snd (cfrun x z c cc y0 l)))) < int64_max)%Z ->
  fc_go y !! n = Some (PHead q) -> get_by_ski (a_pool (fc_st y)) (poi_ski q) = Some crt ->
  (exists j, j ∈ x_infos (parse_ctng crt) /\ g_signer (li_sth j) = g_signer g) \/ entered (fst (cfrun x z c cc y0 (l ++ l'))) (poi_ski q) (mkloginfo g q).
Proof. exact (λ Hx ty k0 d1 d2 l n q crt m1 p1 m2 p2 m3 p3, @filed P x z c cc Hx ty k0 d1 d2 l n q crt m1 p1 m2 p2 m3 p3). Qed.
Print Assumptions C152_filed_partial.

Example C152_filed_ex : let y := fst (cfrun toy_x toy_z toy_ca (toy_cc "localhost:9000" 0) toy_fc0 issued) in
  fine_sizes toy_x toy_z toy_ca (toy_cc "localhost:9000" 0) toy_fc0 (issued ++ [FRun 1 7 []; FRun 1 7 []; FRun 1 7 []]) /\
  fc_go y !! 1 = Some (PHead (toy_poi "localhost:9100")) /\
  exists crt, get_by_ski (a_pool (fc_st y)) (poi_ski (toy_poi "localhost:9100")) = Some crt /\ x_infos (parse_ctng crt) = [].
Proof. exact filed_shown. Qed.

Example C152_kept_ex : exists i, let y := fst (cfrun toy_x toy_z toy_ca (toy_cc "localhost:9000" 0) toy_fc0 first_filed) in let k := poi_ski (toy_poi "localhost:9100") in
  fine_sizes toy_x toy_z toy_ca (toy_cc "localhost:9000" 0) toy_fc0 (first_filed ++ second_handled) /\ entered y k i /\
  (forall crt, PWrite k crt ∈ fc_go y -> i ∈ x_infos (parse_ctng crt)) /\ no_clear toy_x toy_z toy_ca (toy_cc "localhost:9000" 0) y second_handled.
Proof. exact kept_shown. Qed.

Example C152_ex : std_ok toy_x /\ fine_sizes toy_x toy_z toy_ca (toy_cc "localhost:9000" 0) toy_fc0 at_once.
Proof. exact (conj toy_std at_once_sizes). Qed.
