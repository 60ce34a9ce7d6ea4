(** Both monitors of the small system get no good answer of the logger. *)
From Verif Require Import Bytes Hex Json Types Crypto Verify Bitset Cert CertPool CTngExt Revocation Prog Gossiper Network Overlap System SpecGossiper SpecNetwork SpecOverlap SpecDetect SpecCodec SpecAccuse SpecOverlapAccuse SpecSystem SpecSystemDetect SpecSystemAccuse SpecSystemSilent Clock Toy RefuteGossiper GossiperSeq NetworkNode RefuteNetwork RefuteOverlap RefuteSystem SystemFacts RefuteSystemDetect RefuteOverlapAccuse RefuteSystemAccuse.
From Verif Require Logger CA Monitor Client SpecClient.
From Verif Require Import RefuteLogger RefuteCA.
From Coq Require Import Lia.
Open Scope string_scope.

(** At place [k] the monitor gets an answer of [e] to a query for a tree head that does not verify. *)
Definition bad_at (k : nat) (mon e : string) (l : list wevent) : bool :=
  match l !! k, sy_monitors toy_sys !! mon, w_mons (sys_run (start "00") (take k l)) !! mon with
  | Some (EDeliver i _), Some (c, _), Some s =>
      match w_mail (sys_run (start "00") (take k l)) !! i with
      | Some (Response mon' Sth e' (Some g)) => String.eqb mon mon' && String.eqb e e' && bool_decide (verify (Monitor.mc_crypto c) g = Reject)
      | _ => false
      end
  | _, _, _ => false
  end.
(** Whenever a timer for [e] fires at [mon], nothing has been heard of [e]. *)
Definition ignorant_b (mon e : string) (W : world) (_ : list wevent) (ev : wevent) : bool :=
  match ev with
  | EMonitor mon' (Monitor.MFire n m _) =>
      negb (String.eqb mon mon') ||
      match w_mons W !! mon with
      | Some s =>
          match Monitor.m_timers s !! n with
          | Some (Monitor.TAccuse e' Sth) => negb (String.eqb e e') ||
              (bool_decide (Monitor.m_temp s !! mkgid (pad2 m) (init_type Sth) e = None) && bool_decide (Monitor.m_acc s !! mkgid (pad2 m) ACC_FULL e = None) &&
               bool_decide (Monitor.m_con s !! mkgid "0" CON_INIT e = None))
          | _ => true
          end
      | None => true
      end
  | _ => true
  end.
Definition timers_done (mon : string) (W : world) : bool := match w_mons W !! mon with Some s => is_nil (Monitor.m_timers s) | None => false end.

Lemma unanswered_sound k mon e l c u : sy_monitors toy_sys !! mon = Some (c, u) -> bad_at k mon e l = true -> along (ignorant_b mon e) (start "00") [] l = true ->
  timers_done mon (sys_run (start "00") l) = true -> unanswered toy_z toy_x toy_sys (start "00") e l mon u.
Proof.
  intros Hc H1 H2 H3. exists c, Sth. split; [exact Hc|]. split; [|split].
  - unfold bad_at in H1. rewrite Hc in H1. destruct (l !! k) as [ev|] eqn:El; [|done]. destruct ev as [i m| | | | | | | | | | | |]; try done.
    destruct (w_mons _ !! mon) as [s|] eqn:Es; [|done]. destruct (w_mail _ !! i) as [y|] eqn:Ey; [|done].
    destruct y as [| | | |mon' f e' r| |]; try done. destruct f; try done. destruct r as [g|]; [|done].
    apply andb_true_iff in H1 as [[H1 H1']%andb_true_iff Hv]. apply String.eqb_eq in H1 as <-. apply String.eqb_eq in H1' as <-. apply bool_decide_eq_true in Hv.
    exists (take k l), i, m, (drop (Datatypes.S k) l), (Some g), s. split; [symmetry; by apply take_drop_middle|]. split; [exact Ey|]. split; [exact Es|].
    right. exists g. split; [done|]. by left.
  - intros l1 n m stamp l2 s -> Hs Hn. apply along_at in H2. cbn [ignorant_b] in H2. rewrite Hs, Hn, !String.eqb_refl in H2. cbn [negb orb] in H2.
    apply andb_true_iff in H2 as [[A B]%andb_true_iff C]. apply bool_decide_eq_true in A, B, C. by split_and!.
  - unfold timers_done in H3. destruct (w_mons _ !! mon) as [s|] eqn:Es; [|done]. exists s. split; [reflexivity|].
    destruct (Monitor.m_timers s); [apply not_elem_of_nil|discriminate].
Qed.

Lemma bad3_silent : bad_at 11 "m1" lg bad3 && along (ignorant_b "m1" lg) (start "00") [] bad3 && timers_done "m1" (sys_run (start "00") bad3) &&
  (bad_at 12 "m2" lg bad3 && along (ignorant_b "m2" lg) (start "00") [] bad3 && timers_done "m2" (sys_run (start "00") bad3)) = true.
Proof. vm_compute. reflexivity. Qed.

Lemma bad3_unanswered : forall u, u ∈ ["g1"; "g2"] -> is_Some (sy_gossipers toy_sys !! u) /\ exists mon, unanswered toy_z toy_x toy_sys (start "00") lg bad3 mon u.
Proof.
  pose proof bad3_silent as H. apply andb_true_iff in H as [[[A1 A2]%andb_true_iff A3]%andb_true_iff [[B1 B2]%andb_true_iff B3]%andb_true_iff].
  intros u Hu. rewrite !elem_of_cons, elem_of_nil in Hu. destruct Hu as [->|[->|[]]]; (split; [apply two_known; auto|]).
  - exists "m1". exact (unanswered_sound 11 "m1" lg bad3 _ _ eq_refl A1 A2 A3).
  - exists "m2". exact (unanswered_sound 12 "m2" lg bad3 _ _ eq_refl B1 B2 B3).
Qed.
