(** A concrete key encoding, and what happens to damaged files. *)
From Verif Require Import Bytes Hex Base64 Json CodecFacts JsonFacts Crypto CTngExt Toy CryptoIO SpecCryptoIO CryptoIOFacts.
Open Scope string_scope.

(** Keys of the toy primitives in files: strings as JSON strings, numbers in decimal. *)
Definition toy_io : keyio toy := {|
  rsa_pub_json := JStr : rsa_pub toy -> json;
  rsa_pub_read := λ v, (tol_string "" v : rsa_pub toy);
  rsa_sec_json := JStr : rsa_sec toy -> json;
  rsa_sec_read := λ v, (tol_string "" v : rsa_sec toy);
  rsa_sec0 := "" : rsa_sec toy;
  bls_sec0 := 0%Z : bls_sec toy;
  bls_pub_ser := itoa : bls_pub toy -> string;
  bls_pub_deser := atoi : string -> option (bls_pub toy);
  bls_sec_ser := itoa : bls_sec toy -> string;
  bls_sec_deser := atoi : string -> option (bls_sec toy);
  rsa_pub_of := λ k, k;
  bls_pub_of := λ k, k;
  bls_share := λ l id, (zsum l + toy_hash id)%Z
|}.

Definition toy_rsa_rand (i : nat) : rsa_sec toy := "r" ++ itoa (Z.of_nat i).
Definition toy_bls_rand (i : nat) : bls_sec toy := (Z.of_nat i * 7 + 1)%Z.

Lemma toy_rsa_json : rsa_json_ok toy_io.
Proof. by constructor; intros k; [constructor| |constructor|]. Qed.

Lemma toy_pubs_ok (c : cconf toy) : bls_pubs_ok toy_io c.
Proof. intros id k _. apply atoi_itoa. Qed.

Lemma toy_sec_ok (c : cconf toy) : bls_sec_ok toy_io c.
Proof. apply atoi_itoa. Qed.

Lemma toy_ints_ok : ints_ok (toy_cc "g1" 1).
Proof. by vm_compute. Qed.

Lemma toy_empty_sec : bls_sec_deser toy_io "" = None.
Proof. reflexivity. Qed.

Lemma toy_rsa_correct : rsa_correct toy_io.
Proof. intros sk m. apply String.eqb_refl. Qed.

Lemma toy_bls_correct : bls_correct toy_io.
Proof. intros sk m. apply Z.eqb_refl. Qed.

(** A truncated file. *)
Definition truncated : string := "{""SelfID"": ""g1"", ""N"": ".

Lemma truncated_bad : parse_json truncated = None.
Proof. reflexivity. Qed.

(** With the configuration of a truncated file every signature check panics or fails. *)
Lemma truncated_verify_only (m : string) (s : rsasig) :
  cc_verify (fst (read_verify_only toy_io truncated)) m s <> Accept.
Proof. unfold cc_verify. by destruct (String.eqb _ _). Qed.

(** A file with a mistyped threshold loads without an error, with threshold 0. *)
Definition mistyped : string :=
  "{""SelfID"": ""g1"", ""Threshold"": ""2"", ""SignScheme"": ""rsa"", ""ThresholdSecretKey"": """ ++ b64_encode "1" ++ """}".

Lemma mistyped_loads : snd (read_cconf toy_io mistyped) = true /\ cc_threshold (fst (read_cconf toy_io mistyped)) = 0 /\
  cc_self (fst (read_cconf toy_io mistyped)) = "g1".
Proof. vm_compute. done. Qed.

Lemma toy_generated : exists cs c d, entity_configs toy_io toy_rsa_rand toy_bls_rand ["a"; "b"; "c"] 2 = Some cs /\
  c ∈ cs /\ d ∈ cs /\ cc_self c = "a" /\ cc_self d = "c" /\ length cs = 3.
Proof.
  destruct (entity_configs toy_io toy_rsa_rand toy_bls_rand ["a"; "b"; "c"] 2) as [cs|] eqn:E.
  2: { apply (f_equal (λ o, match o with Some _ => true | None => false end)) in E. by vm_compute in E. }
  destruct (configs_own _ _ _ _ _ _ E) as [M _].
  destruct cs as [|a [|b [|c [|? ?]]]]; try (cbn in M; discriminate M). cbn [map] in M. injection M as Ma Mb Mc.
  eexists _, a, c. split; [reflexivity|]. split_and!; [left|do 2 right; left|done|done|done].
Qed.
