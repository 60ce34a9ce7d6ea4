(** Proofs for Props_Details.v. *)
From Verif Require Import Bytes Hex Base64 Json Types Crypto CryptoIO Verify Prog Gossiper Monitor Cert CertPool CTngExt Network Overlap System SpecDetails SpecClient SpecCodec
  CodecFacts JsonFacts WireFacts MonitorMore CryptoIOFacts Fetch.
From Verif Require Gen Client.
Open Scope string_scope.

Fixpoint joined (l : list string) : string := match l with [] => "" | s :: r => s ++ joined r end.
Lemma joined_app a b : joined (a ++ b) = joined a ++ joined b.
Proof. induction a as [|s a IH]; [done|]. cbn. by rewrite IH, app_assoc_s. Qed.
Lemma joined_change a b u v : u <> v -> joined (a ++ u :: b) <> joined (a ++ v :: b).
Proof. intros N E. rewrite !joined_app in E. apply app_inj_l in E. cbn in E. by apply app_inj_r in E. Qed.

Section hash.
Context {P : prims}.
Lemma hash_joined g : obj_hash (P:=P) g = h_sha256 P (joined (announced g)).
Proof. unfold obj_hash, announced, joined. by rewrite app_nil_r_s. Qed.

Lemma changed_asked (cB : gconf P) sB sender g o : g_type g = REV_INIT -> t_payload sB !! get_id g = Some o -> one_change o g ->
  run (notification_handler cB (mknote sender (g_period g) REV_INIT (g_p0 g) (obj_hash (P:=P) g))) sB =
    (add_trace sB [ToGossiper sender "/gossip/new_payload_request" (MNote (mknote (cc_self (gc_crypto cB)) (g_period g) REV_INIT (g_p0 g) (obj_hash (P:=P) g)))], [], Done tt) \/
  exists a b, a <> b /\ h_sha256 P a = h_sha256 P b.
Proof.
  intros Ht Ho (a & b & u & v & E1 & E2 & N). destruct (decide (obj_hash (P:=P) o = obj_hash (P:=P) g)) as [E|E].
  - right. exists (joined (announced o)), (joined (announced g)). split; [rewrite E1, E2; by apply joined_change|]. by rewrite <- !hash_joined.
  - left. apply asked; [done|]. intros o' Ho'. congruence.
Qed.
End hash.

Lemma dec_nulls old l : dec_objs old (JArr (map (λ o, match o with Some g => gobj_json g | None => JNull end) l)) = Some (or_empty l).
Proof.
  cbn [dec_objs]. induction l as [|[g|] l IH]; [done|..]; cbn [map mapM or_empty].
  - rewrite dec_obj_json. cbn. unfold or_empty in IH. by rewrite IH.
  - cbn. unfold or_empty in IH. by rewrite IH.
Qed.
Lemma nulls_read a b c d e f : update_unmarshal (with_nulls a b c d e f) = Some (mkupd (or_empty a) (or_empty b) (or_empty c) (or_empty d) e f).
Proof.
  unfold update_unmarshal, with_nulls. rewrite parse_json_print.
  - cbn [update_fields update_field zero_update].
    change (lower_str "STHs") with "sths". change (lower_str "REVs") with "revs".
    change (lower_str "POM_CONs") with "pom_cons". change (lower_str "POM_ACCs") with "pom_accs".
    change (lower_str "MonitorID") with "monitorid". change (lower_str "Period") with "period".
    do 4 (cbn [String.eqb Ascii.eqb Bool.eqb]; rewrite dec_nulls; cbn [mbind option_bind]).
    cbn [String.eqb Ascii.eqb Bool.eqb dec_string mbind option_bind]. done.
  - assert (W : forall l, wf_json (JArr (map (λ o, match o with Some g => gobj_json g | None => JNull end) l))).
    { intros l. constructor. apply Forall_fmap, Forall_true. intros [g|]; cbn; [apply wf_gobj|constructor]. }
    constructor. repeat (constructor; [try apply W; constructor|]). constructor.
Qed.

Section keys.
Context {P : prims} (K : keyio P) (rsa_rand : nat -> rsa_sec P) (bls_rand : nat -> bls_sec P).
Lemma bls_gen_other t ids : forall i pubs privs id, id ∉ ids -> (bls_gen K bls_rand t i ids pubs privs).2 !! id = privs !! id.
Proof.
  induction ids as [|y ids IH]; intros i pubs privs id N; [done|]. apply not_elem_of_cons in N as [N1 N2]. cbn [bls_gen]. rewrite IH by done. by rewrite lookup_insert_ne.
Qed.
Lemma bls_gen_at t ids : forall i pubs privs n id, NoDup ids -> ids !! n = Some id ->
  (bls_gen K bls_rand t i ids pubs privs).2 !! id = Some (if Nat.ltb (i + n) t then bls_rand (i + n) else bls_share K (map bls_rand (seq 0 t)) id).
Proof.
  induction ids as [|y ids IH]; intros i pubs privs n id Hd Hn; [done|]. apply NoDup_cons in Hd as [Hy Hd]. cbn [bls_gen]. destruct n as [|n]; cbn in Hn.
  - injection Hn as ->. rewrite bls_gen_other by done. rewrite lookup_insert, Nat.add_0_r. done.
  - rewrite (IH _ _ _ n) by done. by rewrite Nat.add_succ_r.
Qed.
Lemma drawn_keys ids t cs n c : entity_configs K rsa_rand bls_rand ids t = Some cs -> NoDup ids -> cs !! n = Some c ->
  (n < t -> cc_bls_sec c = bls_rand n) /\ (t <= n -> cc_bls_sec c = bls_share K (map bls_rand (seq 0 t)) (cc_self c)).
Proof.
  unfold entity_configs, threshold_keypairs. destruct (Nat.ltb t 2); [done|]. destruct (bls_gen K bls_rand t 0 ids ∅ ∅) as [bp bs] eqn:E. destruct (rsa_gen K rsa_rand 0 ids ∅ ∅) as [rp rs].
  intros H Hd Hn. injection H as <-. rewrite list_lookup_fmap in Hn. destruct (ids !! n) as [id|] eqn:Ei; [|done]. injection Hn as <-. cbn [cc_bls_sec cc_self].
  pose proof (bls_gen_at t ids 0 ∅ ∅ n id Hd Ei) as G. rewrite E in G. cbn [snd] in G. rewrite G. cbn [default from_option plus]. split; intros L.
  - by rewrite (proj2 (Nat.ltb_lt n t)).
  - by rewrite (proj2 (Nat.ltb_ge n t)).
Qed.
End keys.

Lemma rekey_nan t s p d k : Gen.last_n 5 s = Some p -> Gen.last_n 3 s = Some d -> Gen.kind_of s = Some k -> atoi d = None -> Gen.rekey t s = Some (Gen.ip_of t k 0 ++ p).
Proof. intros E1 E2 E3 E4. unfold Gen.rekey. rewrite E1, E2, E3. unfold Gen.ip_at, Gen.atoi0. by rewrite E4. Qed.

Lemma clients_fresh {P : prims} x (S : sysconf P) a b d lt ct u s : w_clients (world_init x S a b d lt ct) !! u = Some s -> s = fresh_client.
Proof. cbn [world_init w_clients]. rewrite lookup_fmap. destruct (sy_clients S !! u); [|done]. by intros [= <-]. Qed.
