(** The concrete primitives satisfy the laws used as hypotheses. *)
From Verif Require Import Bytes Hex Json Types Crypto Verify Prog Gossiper SpecCodec SpecVerify Toy CodecFacts CryptoFacts VerifyFacts.
From Coq Require Import Lia.
Open Scope string_scope.

Lemma toy_deser (s : bls_sig toy) : bls_deser (bls_ser s) = Some s.
Proof. exact (atoi_itoa s). Qed.

Lemma toy_agg : agg_correct toy.
Proof.
  intros m l _ H. cbn in *. apply Z.eqb_eq. induction H as [|[pk s] l Hx _ IH]; [done|].
  cbn in *. apply Z.eqb_eq in Hx. unfold zsum in *. cbn. rewrite IH, Hx. lia.
Qed.

Lemma toy_perm : fast_perm toy.
Proof.
  intros m s k1 k2 H. cbn. assert (zsum k1 = zsum k2) as ->; [|done].
  unfold zsum. induction H; cbn; try lia. 
Qed.

Lemma ideal_rsa_unf R B self : rsa_unforgeable (ideal_cc R B self) (ideal_rsa_said R).
Proof. intros id pk m s H1 H2. cbn in *. apply bool_decide_eq_true in H2. by exists pk. Qed.

Lemma toy_bls_nonzero id k : toy_bls !! id = Some k -> k <> 0%Z.
Proof.
  unfold toy_bls. intros H.
  apply lookup_insert_Some in H as [[_ <-]|[_ H]]; [done|].
  apply lookup_insert_Some in H as [[_ <-]|[_ H]]; [done|].
  apply lookup_singleton_Some in H as [_ <-]. done.
Qed.

Lemma ideal_bls_unf R B self : bls_unforgeable (ideal_cc R B self) (ideal_bls_said B).
Proof.
  intros ids keys m s HF HC id Hin [k Hk].
  apply keys_used_iff in HF as ->. cbn in HC, Hk. rewrite forallb_forall in HC.
  specialize (HC (bls_key (ideal_cc R B self) id) (in_map _ _ _ Hin)).
  unfold bls_key in HC. cbn in HC. rewrite Hk in HC.
  apply orb_true_iff in HC as [HC|HC].
  - apply Z.eqb_eq in HC. by apply toy_bls_nonzero in Hk.
  - apply bool_decide_eq_true in HC. by exists k.
Qed.
