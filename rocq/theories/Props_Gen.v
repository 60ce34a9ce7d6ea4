(** C51, C52, C80-C83: generated deployments and their mapping to IP
    addresses. *)
From Verif Require Import Bytes Hex Json Crypto Toy CryptoIO SpecCryptoIO RefuteIO Gen SpecGen GenFacts GenMore GenMap RefuteGen.
From Coq Require Import Lia.
Open Scope string_scope.

(** C51: all entities have different identities, up to a thousand of each kind. *)
Theorem C51_distinct_partial : forall (P : prims) (K : keyio P) rsa_rand bls_rand (ng : nat) (thr : Z) (nl nc : nat) (certs MMD MRD : Z) d,
  rsa_json_ok K -> go_int thr -> ng <= 1000 -> nl <= 1000 -> nc <= 1000 -> generate_all K rsa_rand bls_rand ng thr nl nc certs MMD MRD = Some d ->
  NoDup (map (identity K) (dp_cas d) ++ map (identity K) (dp_loggers d) ++ map (identity K) (dp_monitors d) ++ map (identity K) (dp_gossipers d)).
Proof. exact @gen_distinct. Qed.
Print Assumptions C51_distinct_partial.

(** Every entity signs under the name its private configuration gives it. *)
Theorem C51_signers_partial : forall (P : prims) (K : keyio P) rsa_rand bls_rand (ng : nat) (thr : Z) (nl nc : nat) (certs MMD MRD : Z) d,
  rsa_json_ok K -> go_int thr -> ng <= 1000 -> nl <= 1000 -> nc <= 1000 -> generate_all K rsa_rand bls_rand ng thr nl nc certs MMD MRD = Some d ->
  Forall (λ e, cav_signer (e_priv e) = identity K e) (dp_cas d) /\
  Forall (λ e, lgv_signer (e_priv e) = identity K e) (dp_loggers d) /\
  Forall (λ e, mnv_signer (e_priv e) = identity K e) (dp_monitors d).
Proof. exact @gen_signers. Qed.
Print Assumptions C51_signers_partial.

(** A gossiper is connected to exactly the other gossipers, once to each. *)
Theorem C51_connected_partial : forall (P : prims) (K : keyio P) rsa_rand bls_rand (ng : nat) (thr : Z) (nl nc : nat) (certs MMD MRD : Z) d i e,
  rsa_json_ok K -> go_int thr -> ng <= 1000 -> generate_all K rsa_rand bls_rand ng thr nl nc certs MMD MRD = Some d -> dp_gossipers d !! i = Some e ->
  NoDup (gov_connected (e_priv e)) /\
  forall u, u ∈ gov_connected (e_priv e) <-> exists j e', j <> i /\ dp_gossipers d !! j = Some e' /\ u = identity K e'.
Proof. exact @gen_connected. Qed.
Print Assumptions C51_connected_partial.

(** The monitor and the gossiper with the same number belong together. *)
Theorem C51_pairs_partial : forall (P : prims) (K : keyio P) rsa_rand bls_rand (ng : nat) (thr : Z) (nl nc : nat) (certs MMD MRD : Z) d,
  rsa_json_ok K -> go_int thr -> ng <= 1000 -> generate_all K rsa_rand bls_rand ng thr nl nc certs MMD MRD = Some d ->
  length (dp_monitors d) = length (dp_gossipers d) /\
  forall i m g, dp_monitors d !! i = Some m -> dp_gossipers d !! i = Some g ->
    mnv_gossiper (e_priv m) = identity K g /\ gov_owner (e_priv g) = identity K m.
Proof. exact @gen_pairs. Qed.
Print Assumptions C51_pairs_partial.

(** Every logger serves all CAs, whatever their number. *)
Theorem C51_serves : forall (P : prims) (K : keyio P) rsa_rand bls_rand (ng : nat) (thr : Z) (nl nc : nat) (certs MMD MRD : Z) d,
  rsa_json_ok K -> go_int thr -> go_int (Z.of_nat ng) -> generate_all K rsa_rand bls_rand ng thr nl nc certs MMD MRD = Some d ->
  Forall (λ e, lgv_cas (e_priv e) = map (identity K) (dp_cas d)) (dp_loggers d).
Proof. exact @gen_serves. Qed.
Print Assumptions C51_serves.

(** There are as many entities of each kind as asked for. *)
Theorem C51_sizes : forall (P : prims) (K : keyio P) rsa_rand bls_rand (ng : nat) (thr : Z) (nl nc : nat) (certs MMD MRD : Z) d,
  generate_all K rsa_rand bls_rand ng thr nl nc certs MMD MRD = Some d ->
  length (dp_cas d) = nc /\ length (dp_loggers d) = nl /\ length (dp_monitors d) = ng /\ length (dp_gossipers d) = ng.
Proof. exact @gen_sizes. Qed.
Print Assumptions C51_sizes.

Example C51_ex : rsa_json_ok toy_io /\ go_int 2 /\
  exists d, generate_all toy_io toy_rsa_rand toy_bls_rand 3 2 2 2 5 60 60 = Some d.
Proof. split; [exact toy_rsa_json|]. split; [apply toy_int2|]. destruct toy_deployed as (d & _ & E & _). exists d. exact E. Qed.

(** The gossipers beyond the first thousand share one. *)
Theorem C51_clash_refuted : forall (P : prims) (K : keyio P) rsa_rand bls_rand (ng : nat) (thr : Z) (nl nc : nat) (certs MMD MRD : Z) d,
  rsa_json_ok K -> go_int thr -> go_int (Z.of_nat ng) -> 1002 <= ng -> generate_all K rsa_rand bls_rand ng thr nl nc certs MMD MRD = Some d ->
  exists e e', dp_gossipers d !! 1000 = Some e /\ dp_gossipers d !! 1001 = Some e' /\ identity K e = identity K e' /\
    identity K e = "localhost:9".
Proof. exact @gen_clash. Qed.
Print Assumptions C51_clash_refuted.

Example C51_clash_ex : exists d, generate_all toy_io toy_rsa_rand toy_bls_rand (N.to_nat 1002) 2 1 1 5 60 60 = Some d.
Proof. exact toy_large. Qed.

(** C52: up to a thousand entities of each kind the mapping goes through. *)
Theorem C52_defined_partial : forall (P : prims) (K : keyio P) rsa_rand bls_rand (t : iptable) (ng : nat) (thr : Z) (nl nc : nat) (certs MMD MRD : Z) d,
  keys_ok K -> go_int thr -> ng <= 1000 -> nl <= 1000 -> nc <= 1000 ->
  generate_all K rsa_rand bls_rand ng thr nl nc certs MMD MRD = Some d -> is_Some (map_all K t d).
Proof. exact @map_defined. Qed.
Print Assumptions C52_defined_partial.

(** Every entity's identity becomes its IP with its old port. *)
Theorem C52_identities_partial : forall (P : prims) (K : keyio P) rsa_rand bls_rand (t : iptable) (ng : nat) (thr : Z) (nl nc : nat) (certs MMD MRD : Z) d d',
  keys_ok K -> go_int thr -> ng <= 1000 -> nl <= 1000 -> nc <= 1000 ->
  generate_all K rsa_rand bls_rand ng thr nl nc certs MMD MRD = Some d -> map_all K t d = Some d' ->
  map (identity K) (dp_cas d') = addresses t KCA nc /\ map (identity K) (dp_loggers d') = addresses t KLogger nl /\
  map (identity K) (dp_monitors d') = addresses t KMonitor ng /\ map (identity K) (dp_gossipers d') = addresses t KGossiper ng.
Proof. exact @mapped_identities. Qed.
Print Assumptions C52_identities_partial.

(** Its keys stay, and the key tables are renamed in the same way. *)
Theorem C52_keys_partial : forall (P : prims) (K : keyio P) rsa_rand bls_rand (t : iptable) (ng : nat) (thr : Z) (nl nc : nat) (certs MMD MRD : Z) d d',
  keys_ok K -> go_int thr -> ng <= 1000 -> nl <= 1000 -> nc <= 1000 ->
  generate_all K rsa_rand bls_rand ng thr nl nc certs MMD MRD = Some d -> map_all K t d = Some d' ->
  Forall2 (remapped t) (all_configs K d) (all_configs K d').
Proof. exact @mapped_configs. Qed.
Print Assumptions C52_keys_partial.

(** Identities stay distinct, even if entities share an IP. *)
Theorem C52_distinct_partial : forall (P : prims) (K : keyio P) rsa_rand bls_rand (t : iptable) (ng : nat) (thr : Z) (nl nc : nat) (certs MMD MRD : Z) d d',
  keys_ok K -> go_int thr -> ng <= 1000 -> nl <= 1000 -> nc <= 1000 ->
  generate_all K rsa_rand bls_rand ng thr nl nc certs MMD MRD = Some d -> map_all K t d = Some d' ->
  NoDup (map (identity K) (dp_cas d') ++ map (identity K) (dp_loggers d') ++ map (identity K) (dp_monitors d') ++ map (identity K) (dp_gossipers d')).
Proof. exact @mapped_distinct. Qed.
Print Assumptions C52_distinct_partial.

(** These lists of the configurations name the entities by their new identities. *)
Theorem C52_lists_partial : forall (P : prims) (K : keyio P) rsa_rand bls_rand (t : iptable) (ng : nat) (thr : Z) (nl nc : nat) (certs MMD MRD : Z) d d',
  keys_ok K -> go_int thr -> ng <= 1000 -> nl <= 1000 -> nc <= 1000 ->
  generate_all K rsa_rand bls_rand ng thr nl nc certs MMD MRD = Some d -> map_all K t d = Some d' ->
  let cas := map (identity K) (dp_cas d') in let loggers := map (identity K) (dp_loggers d') in
  let monitors := map (identity K) (dp_monitors d') in let gossipers := map (identity K) (dp_gossipers d') in
  Forall (λ e, cap_cas (e_pub e) = cas /\ cap_loggers (e_pub e) = loggers /\
               cav_monitors (e_priv e) = monitors /\ cav_gossipers (e_priv e) = gossipers /\ cav_signer (e_priv e) = identity K e) (dp_cas d') /\
  Forall (λ e, lgp_cas (e_pub e) = cas /\ lgp_loggers (e_pub e) = loggers /\
               lgv_monitors (e_priv e) = monitors /\ lgv_gossipers (e_priv e) = gossipers /\ lgv_signer (e_priv e) = identity K e) (dp_loggers d') /\
  Forall (λ e, mnp_cas (e_pub e) = cas /\ mnp_loggers (e_pub e) = loggers /\
               mnv_cas (e_priv e) = cas /\ mnv_loggers (e_priv e) = loggers /\ mnv_signer (e_priv e) = identity K e) (dp_monitors d') /\
  Forall (λ e, gop_gossipers (e_pub e) = gossipers /\ gop_signers (e_pub e) = monitors) (dp_gossipers d').
Proof. exact @mapped_lists. Qed.
Print Assumptions C52_lists_partial.

(** Gossipers stay connected to exactly the other gossipers. *)
Theorem C52_connected_partial : forall (P : prims) (K : keyio P) rsa_rand bls_rand (t : iptable) (ng : nat) (thr : Z) (nl nc : nat) (certs MMD MRD : Z) d d' i e,
  keys_ok K -> go_int thr -> ng <= 1000 -> nl <= 1000 -> nc <= 1000 ->
  generate_all K rsa_rand bls_rand ng thr nl nc certs MMD MRD = Some d -> map_all K t d = Some d' -> dp_gossipers d' !! i = Some e ->
  NoDup (gov_connected (e_priv e)) /\
  forall u, u ∈ gov_connected (e_priv e) <-> exists j e', j <> i /\ dp_gossipers d' !! j = Some e' /\ u = identity K e'.
Proof. exact @mapped_connected. Qed.
Print Assumptions C52_connected_partial.

(** A monitor finds its gossiper; the gossiper finds its owner exactly if both
    have the same IP. *)
Theorem C52_pairs_partial : forall (P : prims) (K : keyio P) rsa_rand bls_rand (t : iptable) (ng : nat) (thr : Z) (nl nc : nat) (certs MMD MRD : Z) d d' i m g,
  keys_ok K -> go_int thr -> ng <= 1000 -> nl <= 1000 -> nc <= 1000 ->
  generate_all K rsa_rand bls_rand ng thr nl nc certs MMD MRD = Some d -> map_all K t d = Some d' ->
  dp_monitors d' !! i = Some m -> dp_gossipers d' !! i = Some g ->
  mnv_gossiper (e_priv m) = identity K g /\
  (gov_owner (e_priv g) = identity K m <-> ip_of t KGossiper i = ip_of t KMonitor i).
Proof. exact @mapped_pairs. Qed.
Print Assumptions C52_pairs_partial.

(** The IPs of the template file. *)
Theorem C52_template : forall nc nl nmg m1 o1 m2 o2 m3 o3 k i,
  ip_of (ip_template nc nl nmg m1 o1 m2 o2 m3 o3) k i =
  match k with
  | KCA => if Nat.ltb i nc then m1 ++ itoa (Z.of_nat i + o1) else ""
  | KLogger => if Nat.ltb i nl then m2 ++ itoa (Z.of_nat i + o2) else ""
  | KMonitor | KGossiper => if Nat.ltb i nmg then m3 ++ itoa (Z.of_nat i + o3) else ""
  end.
Proof. exact @template_ip. Qed.
Print Assumptions C52_template.

(** The first CA is pointed to an address that is no logger's. *)
Theorem C52_ca_loggers_refuted : forall (P : prims) (K : keyio P) rsa_rand bls_rand (t : iptable) (ng : nat) (thr : Z) (nl nc : nat) (certs MMD MRD : Z) d d' e,
  keys_ok K -> go_int thr -> ng <= 1000 -> nl <= 1000 -> nc <= 1000 ->
  generate_all K rsa_rand bls_rand ng thr nl nc certs MMD MRD = Some d -> map_all K t d = Some d' ->
  2 <= nl -> ip_of t KLogger 0 <> ip_of t KLogger (nl - 1) -> dp_cas d' !! 0 = Some e ->
  exists u, u ∈ cav_loggers (e_priv e) /\ u ∉ map (identity K) (dp_loggers d').
Proof. exact @mapped_ca_loggers. Qed.
Print Assumptions C52_ca_loggers_refuted.

(** The CAs a logger is told of are not renamed at all. *)
Theorem C52_logger_cas_refuted : forall (P : prims) (K : keyio P) rsa_rand bls_rand (t : iptable) (ng : nat) (thr : Z) (nl nc : nat) (certs MMD MRD : Z) d d',
  keys_ok K -> go_int thr -> ng <= 1000 -> nl <= 1000 -> nc <= 1000 ->
  generate_all K rsa_rand bls_rand ng thr nl nc certs MMD MRD = Some d -> map_all K t d = Some d' ->
  (forall i, ip_of t KCA i <> "localhost") ->
  Forall (λ e, length (lgv_cas (e_priv e)) = nc /\ forall u, u ∈ lgv_cas (e_priv e) -> u ∉ map (identity K) (dp_cas d')) (dp_loggers d').
Proof. exact @mapped_lg_cas. Qed.
Print Assumptions C52_logger_cas_refuted.

Example C52_ex : keys_ok toy_io /\ go_int 2 /\
  (ip_of toy_ips KLogger 0 <> ip_of toy_ips KLogger (2 - 1) /\ forall i, ip_of toy_ips KCA i <> "localhost") /\
  exists d d', generate_all toy_io toy_rsa_rand toy_bls_rand 3 2 2 2 5 60 60 = Some d /\ map_all toy_io toy_ips d = Some d' /\
  length (dp_cas d) = 2 /\ length (dp_gossipers d') = 3.
Proof. split; [exact toy_keys_ok|]. split; [apply toy_int2|]. split; [exact toy_ips_differ|exact toy_deployed]. Qed.

(** C80: the merge delay and the number of certificates are those asked for; the
    revocation delay is the merge delay. *)
Theorem C80_times_partial : forall (P : prims) (K : keyio P) rsa_rand bls_rand (ng : nat) (thr : Z) (nl nc : nat) (certs MMD MRD : Z) d, generate_all K rsa_rand bls_rand ng thr nl nc certs MMD MRD = Some d ->
  Forall (λ e, cap_mmd (e_pub e) = MMD /\ cap_mrd (e_pub e) = MMD /\ cav_certs (e_priv e) = certs) (dp_cas d) /\
  Forall (λ e, lgp_mmd (e_pub e) = MMD /\ lgp_mrd (e_pub e) = MMD) (dp_loggers d) /\
  Forall (λ e, mnp_mmd (e_pub e) = MMD /\ mnp_mrd (e_pub e) = MMD) (dp_monitors d) /\
  Forall (λ e, gop_mmd (e_pub e) = MMD /\ gop_mrd (e_pub e) = MMD) (dp_gossipers d).
Proof. exact @gen_times. Qed.
Print Assumptions C80_times_partial.

(** The revocation delay asked for has no effect. *)
Theorem C80_mrd_refuted : forall (P : prims) (K : keyio P) rsa_rand bls_rand (ng : nat) (thr : Z) (nl nc : nat) (certs MMD MRD MRD' : Z),
  generate_all K rsa_rand bls_rand ng thr nl nc certs MMD MRD = generate_all K rsa_rand bls_rand ng thr nl nc certs MMD MRD'.
Proof. exact @gen_mrd. Qed.
Print Assumptions C80_mrd_refuted.

Example C80_ex : exists d, generate_all toy_io toy_rsa_rand toy_bls_rand 3 2 2 2 5 60 30 = Some d.
Proof. apply gen_defined. lia. Qed.

(** C81: what one entity of a generated deployment signs, all accept as its. *)
Theorem C81_interoperate : forall (P : prims) (K : keyio P) rsa_rand bls_rand (ng : nat) (thr : Z) (nl nc : nat) (certs MMD MRD : Z) d c c' m,
  keys_ok K -> rsa_correct K -> go_int thr -> go_int (Z.of_nat ng) ->
  generate_all K rsa_rand bls_rand ng thr nl nc certs MMD MRD = Some d -> c ∈ all_configs K d -> c' ∈ all_configs K d ->
  exists sg, cc_sign c m = Some sg /\ rs_id sg = cc_self c /\ cc_verify c' m sg = Accept.
Proof. exact @gen_interoperate. Qed.
Print Assumptions C81_interoperate.

(** All accept a gossiper's fragments if there are at least two gossipers. *)
Theorem C81_fragments : forall (P : prims) (K : keyio P) rsa_rand bls_rand (ng : nat) (thr : Z) (nl nc : nat) (certs MMD MRD : Z) d g c' m,
  keys_ok K -> bls_correct K -> go_int thr -> go_int (Z.of_nat ng) -> 2 <= ng ->
  generate_all K rsa_rand bls_rand ng thr nl nc certs MMD MRD = Some d -> g ∈ dp_gossipers d -> c' ∈ all_configs K d ->
  exists f, cc_thr_sign (config_of K g) m = Some f /\ sf_id f = identity K g /\ cc_frag_verify c' m f = Accept.
Proof. exact @gen_fragments. Qed.
Print Assumptions C81_fragments.

(** All have the threshold asked for and the number of gossipers. *)
Theorem C81_parameters : forall (P : prims) (K : keyio P) rsa_rand bls_rand (ng : nat) (thr : Z) (nl nc : nat) (certs MMD MRD : Z) d,
  keys_ok K -> go_int thr -> go_int (Z.of_nat ng) -> generate_all K rsa_rand bls_rand ng thr nl nc certs MMD MRD = Some d ->
  Forall (λ c, cc_threshold c = Z.to_nat thr /\ cc_n c = Z.of_nat ng) (all_configs K d).
Proof. exact @gen_parameters. Qed.
Print Assumptions C81_parameters.

Example C81_ex : keys_ok toy_io /\ rsa_correct toy_io /\ bls_correct toy_io /\ go_int 2 /\ go_int (Z.of_nat 3) /\
  exists d, generate_all toy_io toy_rsa_rand toy_bls_rand 3 2 2 2 5 60 60 = Some d.
Proof.
  split; [exact toy_keys_ok|]. split; [exact toy_rsa_correct|]. split; [exact toy_bls_correct|]. split; [apply toy_int2|]. split; [apply toy_int2|].
  destruct toy_deployed as (d & _ & E & _). exists d. exact E.
Qed.

(** C82: a CA is assigned two loggers; they are the same one exactly if it is the
    middle one. *)
Theorem C82_two_loggers_partial : forall (P : prims) (K : keyio P) rsa_rand bls_rand (ng : nat) (thr : Z) (nl nc : nat) (certs MMD MRD : Z) d i e, nl <= 1000 -> nc <= 1000 ->
  generate_all K rsa_rand bls_rand ng thr nl nc certs MMD MRD = Some d -> dp_cas d !! i = Some e ->
  exists a b, cav_loggers (e_priv e) = [url KLogger a; url KLogger b] /\ a < nl /\ b < nl /\
    (a = b <-> 2 * (i mod nl) + 1 = nl).
Proof. exact @gen_ca_loggers. Qed.
Print Assumptions C82_two_loggers_partial.

(** Generation stops with a panic exactly if there are CAs and no loggers. *)
Theorem C82_defined : forall (P : prims) (K : keyio P) rsa_rand bls_rand (ng : nat) (thr : Z) (nl nc : nat) (certs MMD MRD : Z),
  is_Some (generate_all K rsa_rand bls_rand ng thr nl nc certs MMD MRD) <-> (0 < nl \/ nc = 0).
Proof. exact @gen_defined. Qed.
Print Assumptions C82_defined.

(** With one logger its two loggers are the same. *)
Theorem C82_one_logger_refuted : exists d e, generate_all toy_io toy_rsa_rand toy_bls_rand 3 2 1 1 5 60 60 = Some d /\ dp_cas d !! 0 = Some e /\
  cav_loggers (e_priv e) = ["localhost:7000"; "localhost:7000"].
Proof. exact @one_logger. Qed.
Print Assumptions C82_one_logger_refuted.

Example C82_ex : exists d, generate_all toy_io toy_rsa_rand toy_bls_rand 3 2 2 2 5 60 60 = Some d /\ length (dp_cas d) = 2.
Proof. destruct toy_deployed as (d & _ & E & _ & L & _). exists d. exact (conj E L). Qed.

(** C83: after the mapping signatures are still accepted by all. *)
Theorem C83_interoperate : forall (P : prims) (K : keyio P) rsa_rand bls_rand (t : iptable) (ng : nat) (thr : Z) (nl nc : nat) (certs MMD MRD : Z) d d' c c' m,
  keys_ok K -> rsa_correct K -> go_int thr -> ng <= 1000 -> nl <= 1000 -> nc <= 1000 ->
  generate_all K rsa_rand bls_rand ng thr nl nc certs MMD MRD = Some d -> map_all K t d = Some d' -> c ∈ all_configs K d' -> c' ∈ all_configs K d' ->
  exists sg, cc_sign c m = Some sg /\ rs_id sg = cc_self c /\ cc_verify c' m sg = Accept.
Proof. exact @mapped_interoperate. Qed.
Print Assumptions C83_interoperate.

(** So are fragments. *)
Theorem C83_fragments : forall (P : prims) (K : keyio P) rsa_rand bls_rand (t : iptable) (ng : nat) (thr : Z) (nl nc : nat) (certs MMD MRD : Z) d d' g c' m,
  keys_ok K -> bls_correct K -> go_int thr -> ng <= 1000 -> nl <= 1000 -> nc <= 1000 -> 2 <= ng ->
  generate_all K rsa_rand bls_rand ng thr nl nc certs MMD MRD = Some d -> map_all K t d = Some d' -> g ∈ dp_gossipers d' -> c' ∈ all_configs K d' ->
  exists f, cc_thr_sign (config_of K g) m = Some f /\ sf_id f = identity K g /\ cc_frag_verify c' m f = Accept.
Proof. exact @mapped_fragments. Qed.
Print Assumptions C83_fragments.

Example C83_ex : keys_ok toy_io /\ rsa_correct toy_io /\ bls_correct toy_io /\ go_int 2 /\
  exists d d', generate_all toy_io toy_rsa_rand toy_bls_rand 3 2 2 2 5 60 60 = Some d /\ map_all toy_io toy_ips d = Some d' /\
  length (dp_cas d) = 2 /\ length (dp_gossipers d') = 3.
Proof. split; [exact toy_keys_ok|]. split; [exact toy_rsa_correct|]. split; [exact toy_bls_correct|]. split; [apply toy_int2|exact toy_deployed]. Qed.

