(** A concrete deployment that meets the hypotheses of the theorems about
    generation and mapping. *)
From Verif Require Import Bytes Hex Json CodecFacts JsonFacts Crypto Toy CryptoIO SpecCryptoIO CryptoIOFacts RefuteIO Gen SpecGen GenFacts GenMore GenMap.
From Coq Require Import Lia.
Open Scope string_scope.

Lemma toy_keys_ok : keys_ok toy_io.
Proof.
  split; [exact toy_rsa_json|]. split; [intros k; apply atoi_itoa|]. intros k.
  change (default 0%Z (atoi (itoa k)) = k). by rewrite atoi_itoa.
Qed.

(** Three monitors with their gossipers, two loggers, two CAs. *)
Definition toy_ips : iptable := ip_template 2 2 3 "10.0.0." 1 "10.0.1." 1 "10.0.2." 1.

Lemma toy_deployed : exists d d', generate_all toy_io toy_rsa_rand toy_bls_rand 3 2 2 2 5 60 60 = Some d /\ map_all toy_io toy_ips d = Some d' /\
  length (dp_cas d) = 2 /\ length (dp_gossipers d') = 3.
Proof.
  destruct (proj2 (gen_defined toy_io toy_rsa_rand toy_bls_rand 3 2 2 2 5 60 60)) as [d E]; [lia|].
  assert (go_int 2) as H2 by (unfold go_int; lia).
  destruct (map_defined toy_io toy_rsa_rand toy_bls_rand toy_ips 3 2 2 2 5 60 60 d toy_keys_ok H2) as [d' E']; [lia|lia|lia|done|].
  exists d, d'. split_and!; [done|done|by apply gen_sizes in E as (? & _)|].
  assert (length (map (identity toy_io) (dp_gossipers d')) = 3) as L; [|by rewrite map_length in L].
  destruct (mapped_identities toy_io toy_rsa_rand toy_bls_rand toy_ips 3 2 2 2 5 60 60 d d' toy_keys_ok H2) as (_ & _ & _ & ->); [lia|lia|lia|done|done|].
  done.
Qed.

(** More than a thousand gossipers. *)
Lemma toy_large : exists d, generate_all toy_io toy_rsa_rand toy_bls_rand (N.to_nat 1002) 2 1 1 5 60 60 = Some d.
Proof. apply gen_defined. lia. Qed.

Lemma toy_ips_differ : ip_of toy_ips KLogger 0 <> ip_of toy_ips KLogger (2 - 1) /\ forall i, ip_of toy_ips KCA i <> "localhost".
Proof.
  split; [by vm_compute|]. intros i. unfold toy_ips. rewrite template_ip. destruct (Nat.ltb i 2); intros E; discriminate E.
Qed.

Lemma toy_int2 : go_int 2 /\ go_int (Z.of_nat 3).
Proof. unfold go_int. lia. Qed.

(** With one logger, or for the CA in the middle, both loggers of a CA are the same one. *)
Lemma one_logger : exists d e, generate_all toy_io toy_rsa_rand toy_bls_rand 3 2 1 1 5 60 60 = Some d /\ dp_cas d !! 0 = Some e /\
  cav_loggers (e_priv e) = ["localhost:7000"; "localhost:7000"].
Proof.
  destruct (proj2 (gen_defined toy_io toy_rsa_rand toy_bls_rand 3 2 1 1 5 60 60)) as [d E]; [lia|].
  apply generated_eq in E as E0. destruct E0 as [_ ->]. eexists _, _. split; [exact E|]. split; [apply lookup_map_seq; split; [lia|reflexivity]|].
  vm_compute. reflexivity.
Qed.
