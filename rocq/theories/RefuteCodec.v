(** Counterexamples and remaining facts about text formats. *)
From Verif Require Import Bytes Hex Json Types Crypto Verify SpecCodec SpecVerify CodecFacts JsonFacts CryptoFacts VerifyFacts.
From Coq Require Import Lia Sorting.
From stdpp Require Import sorting.
Open Scope string_scope.

Lemma rsasig_roundtrip_refuted : exists s, rsasig_from_string (rsasig_string s) <> Some s.
Proof. exists (mkrsasig "x" "a""b"). vm_compute. congruence. Qed.

(** A quote in the identity lets its owner pose as somebody else. *)
Lemma rsasig_injection : exists s s', rsasig_from_string (rsasig_string s) = Some s' /\
  rs_sig s' <> rs_sig s /\ rs_id s' = "victim".
Proof.
  exists (mkrsasig "x" "me"",""sig"":""6162"",""id"":""victim"), (mkrsasig "ab" "victim").
  vm_compute. split_and!; congruence.
Qed.

Section agg.
Context {P : prims}.
Lemma aggregate_fails_iff (l : list (sigfrag P)) n : thr_aggregate l n = None <-> length l < n.
Proof.
  unfold thr_aggregate. destruct (Nat.ltb_spec (length l) n); split; intros; try done; lia.
Qed.

Lemma aggregate_ids (l : list (sigfrag P)) n t : thr_aggregate l n = Some t ->
  ts_ids t ≡ₚ map sf_id l /\ Sorted str_le (ts_ids t) /\ ts_sign t = bls_agg (map sf_sign l).
Proof.
  unfold thr_aggregate. destruct (Nat.ltb (length l) n); [done|]. intros [= <-]. cbn.
  split_and!; [apply sort_ids_perm|apply StronglySorted_Sorted, sort_ids_sorted|done].
Qed.

Lemma aggregate_perm (l1 l2 : list (sigfrag P)) n :
  (forall a b : list (bls_sig P), a ≡ₚ b -> bls_agg a = bls_agg b) ->
  l1 ≡ₚ l2 -> thr_aggregate l1 n = thr_aggregate l2 n.
Proof.
  intros Hp H. unfold thr_aggregate. rewrite (Permutation_length H).
  rewrite (sort_ids_perm_eq (map sf_id l1) (map sf_id l2)) by (by apply Permutation_map).
  by rewrite (Hp (map sf_sign l1) (map sf_sign l2)) by (by apply Permutation_map).
Qed.
End agg.

(** Identifiers. *)
Lemma get_id_iff g h : get_id g = get_id h <->
  g_period g = g_period h /\ g_type g = g_type h /\ g_p0 g = g_p0 h.
Proof. unfold get_id. split; [by intros [= -> -> ->]|by intros (-> & -> & ->)]. Qed.

Lemma target_type_spec g :
  target_type g =
  if bool_decide (g_type g = STH_INIT) then STH_FRAG
  else if bool_decide (g_type g = REV_INIT) then REV_FRAG
  else if bool_decide (g_type g = ACC_INIT) then ACC_FRAG
  else if bool_decide (g_type g = STH_FRAG) then STH_FULL
  else if bool_decide (g_type g = REV_FRAG) then REV_FULL
  else if bool_decide (g_type g = ACC_FRAG) then ACC_FULL
  else "".
Proof.
  unfold target_type, obj_kind. pose proof (kind_of_spec (g_type g)) as H.
  destruct (kind_of (g_type g)) as [[[]| |[]]|[]|]; cbn in H; try (rewrite H; reflexivity).
  repeat (case_bool_decide; [match goal with E : _ = _ |- _ => exfalso; apply H; rewrite E end;
    repeat first [apply elem_of_list_here | apply elem_of_list_further]|]). done.
Qed.

Lemma stages_apart g h k : is_init g -> is_frag h -> is_full k ->
  get_id g <> get_id h /\ get_id h <> get_id k /\ get_id g <> get_id k.
Proof.
  unfold is_init, is_frag, is_full. rewrite !get_id_iff.
  intros [H1|[H1|H1]] [H2|[H2|H2]] [H3|[H3|H3]]; rewrite H1, H2, H3; split_and!; intros (_ & H & _); discriminate H.
Qed.

(** The printed form of an identifier does not determine it. *)
Lemma gid_string_refuted : exists i j, i <> j /\ gid_string i = gid_string j.
Proof. exists (mkgid "1" "2x" "y"), (mkgid "12" "x" "y"). split; [congruence|done]. Qed.
