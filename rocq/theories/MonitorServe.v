(** What a monitor serves to clients. *)
From Verif Require Import Bytes Hex Base64 Base64Facts Json JsonFacts CryptoFacts Types WireFacts Crypto Verify SpecVerify VerifyFacts Bitset Revocation Clock CodecFacts SpecCodec
  Monitor SpecMonitor MonitorFacts MonitorUpdate MonitorMore.
From Coq Require Import Lia.
Open Scope string_scope.

Section serve.
Context {P : prims} (z : gzip) (c : mconf (P:=P)).
Implicit Types (s : mst) (l : list mevent).
Notation mstep := (mstep z c).
Notation mrun := (mrun z c).

Lemma files_kept s e s' o m : mstep s e = Some (s', o) -> e <> MPublish m ->
  m_files s' !! ("Period_" ++ itoa (Z.of_nat m - mc_offset c)) = m_files s !! ("Period_" ++ itoa (Z.of_nat m - mc_offset c)).
Proof.
  assert (forall g, m_files (store z s g) = m_files s) as K.
  { intros g. destruct s. unfold Monitor.store. by destruct (obj_kind g) as [[[]| |[]]|[]|]. }
  assert (forall g s' o, process_valid z c s g = (s', o) -> m_files s' = m_files s) as K2.
  { intros g s2 o2 [-> |(-> & _)]%process_cases; [done|apply K]. }
  intros H V. destruct e as [y|m'|m'|f' u r|n m' st| |m'|m']; cbn in H.
  - injection H as H. unfold handle_gossip in H. destruct (is_duplicate s y); [by injection H as <- <-|].
    destruct (obj_kind y) as [[[]| |[]]|[]|]; try (by rewrite (K2 _ _ _ H)); injection H as <- <-; by rewrite K.
  - by injection H as <- <-.
  - by injection H as <- <-.
  - apply reply_timers in H as [(-> & _ & B)|(y & -> & _ & H)]; [by destruct s|by rewrite (K2 _ _ _ H)].
  - destruct (m_timers s !! n) as [[ca' d'|]|]; injection H as <- <-; [|by destruct s|done].
    unfold crv_timer. destruct (m_crv (set_timers s _) !! ca'); by destruct s.
  - by injection H as <- <-.
  - by injection H as <- <-.
  - injection H as <- <-. cbn. rewrite lookup_insert_ne; [done|]. intros E. apply V. f_equal.
    injection E as E. apply itoa_inj in E. lia.
Qed.

Lemma files_kept_run l s s' o m : mrun s l = Some (s', o) -> MPublish m ∉ l ->
  m_files s' !! ("Period_" ++ itoa (Z.of_nat m - mc_offset c)) = m_files s !! ("Period_" ++ itoa (Z.of_nat m - mc_offset c)).
Proof.
  revert s o. induction l as [|e l IH]; intros s o; cbn; [by intros [= <- <-]|].
  destruct (mstep s e) as [[s1 o1]|] eqn:E; [|done]. destruct (mrun s1 l) as [[s2 o2]|] eqn:E2; [|done].
  intros [= <- <-] Hn. transitivity (m_files s1 !! ("Period_" ++ itoa (Z.of_nat m - mc_offset c))); [apply (IH s1 o2 E2); set_solver|].
  apply (files_kept _ _ _ _ _ E). set_solver.
Qed.

Lemma run_split l1 l2 s s' o : mrun s (l1 ++ l2)%list = Some (s', o) -> exists s1 o1 o2, mrun s l1 = Some (s1, o1) /\ mrun s1 l2 = Some (s', o2).
Proof.
  revert s o. induction l1 as [|e l1 IH]; intros s o; cbn; [eauto|].
  destruct (mstep s e) as [[s1 o1]|]; [|done]. destruct (mrun s1 (l1 ++ l2)%list) as [[s2 o2]|] eqn:E; [|done].
  intros [= <- <-]. destruct (IH _ _ E) as (s3 & o3 & o4 & H1 & H2). rewrite H1. eauto.
Qed.

(** The answer is the update in two further wrappings. *)
Lemma twice_decoded l s m l' s' : reached z c l s -> reached z c (l ++ period_end m ++ l') s' -> MPublish m ∉ l' ->
  exists u body t text, written z c monitor_init (l ++ period_end m) = (written z c monitor_init l ++ [u])%list /\
    request_update s' (itoa (Z.of_nat m - mc_offset c)) = Some body /\
    parse_json body = Some (JStr t) /\ b64_decode t = Some text /\ update_unmarshal text = Some u.
Proof.
  intros R [o R'] Hn. destruct (period_update z c l s m R) as (u & s1 & [o1 R1] & W & F & _).
  exists u, (served u), (b64_encode (update_marshal u)), (update_marshal u). split; [done|].
  split; [|split; [apply served_is_string|split; [apply b64_roundtrip|apply update_roundtrip]]].
  eapply request_answer; [|reflexivity]. rewrite app_assoc in R'. apply run_split in R' as (s2 & o2 & o3 & R2 & R3).
  assert (s2 = s1) as -> by congruence. rewrite <- F. apply (files_kept_run _ _ _ _ m R3 Hn).
Qed.
End serve.
