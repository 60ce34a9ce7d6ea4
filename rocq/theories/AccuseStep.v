(** What one event does to a gossiper, as far as accusations of an entity
    are concerned. *)
From Verif Require Import Bytes Hex Json Types Crypto Verify Prog Gossiper Network SpecCodec SpecVerify SpecGossiper SpecNetwork SpecAccuse ProgFacts GstFacts CodecFacts CryptoFacts VerifyFacts GWalk GossiperInv GossiperSeq GossiperEvidence GossiperStep GossiperSeqInv GossiperConflict GossiperFrag NetworkNode NetworkFacts DetectStep AccuseNode.
From Coq Require Import Lia.
Open Scope string_scope.

Section step.
Context {P : prims} (cfgs : gmap string (gconf P)) (T : nat) (HN : honest_network cfgs T).
Context (Hagg : agg_correct P) (Hperm : fast_perm P) (Hdeser : forall sg : bls_sig P, bls_deser (bls_ser sg) = Some sg).
Context (e p : string) (As : list gobj) (HA : accusations cfgs e p As).
Context (acd : string -> Prop) (stm : gobj -> Prop).
Context (Hstm : forall g, stm g -> g_signer g <> "" /\ forall h, stm h -> get_id h = get_id g -> (g_s0 h, g_s1 h) = (g_s0 g, g_s1 g)).
Notation frag_ok := (frag_ok cfgs As acd).
Notation bucket := (AccuseNode.bucket e p).
Notation signers s := (map g_signer (bucket s)).
Notation the_sig := (NetworkNode.the_sig).

Lemma acc_kind a : a ∈ As -> obj_kind a = KObj (OInit Acc).
Proof using HA. intros Ha. destruct (ac_kind _ _ _ _ HA a Ha) as (Ht & _). unfold obj_kind. by rewrite Ht. Qed.

Lemma acc_fields (d : gconf P) a : a ∈ As -> obj_kind (fragment_by d a) = KFrag Acc /\ get_id (fragment_by d a) = mkgid p ACC_FRAG e /\
  g_p0 (fragment_by d a) = e /\ g_p1 (fragment_by d a) = g_p1 a /\ g_p2 (fragment_by d a) = g_p2 a /\
  g_s0 (fragment_by d a) = sigfrag_string (the_sig d a) /\ g_s1 (fragment_by d a) = g_s1 a /\ g_signer (fragment_by d a) = cc_self (gc_crypto d).
Proof using HA.
  intros Ha. pose proof (acc_kind a Ha) as Hk. pose proof (frag_of_kind d a (sigfrag_string (the_sig d a)) Acc Hk) as Hf.
  split; [exact Hf|]. apply obj_kind_frag in Hf. destruct (ac_kind _ _ _ _ HA a Ha) as (_ & E0 & Ep).
  assert (get_id (fragment_by d a) = mkgid p ACC_FRAG e) as Hid.
  { unfold get_id. change (fragment_by d a) with (frag_of d a (sigfrag_string (the_sig d a))). rewrite Hf. by destruct a; cbn in *; subst. }
  split; [exact Hid|]. unfold fragment_by. destruct a; cbn in *. by subst.
Qed.

Lemma same_msg a b : a ∈ As -> b ∈ As -> signed_msg a = signed_msg b /\ g_s1 a = g_s1 b.
Proof using HA.
  intros Ha Hb. destruct (ac_same _ _ _ _ HA a b Ha Hb) as (E1 & E2 & E3). destruct (ac_kind _ _ _ _ HA a Ha) as (_ & F1 & _). destruct (ac_kind _ _ _ _ HA b Hb) as (_ & F2 & _).
  split; [|done]. unfold signed_msg. congruence.
Qed.

(** Fragments are told apart by their signers. *)
Lemma frag_sigs o o' : frag_ok o -> frag_ok o' -> (g_s0 o, g_s1 o) = (g_s0 o', g_s1 o') <-> g_signer o = g_signer o'.
Proof using HN Hdeser HA.
  intros (v & d & a & Hv & _ & Ha & ->) (v' & d' & a' & Hv' & _ & Ha' & ->).
  destruct (acc_fields d a Ha) as (_ & _ & _ & _ & _ & E0 & E1 & Es). destruct (acc_fields d' a' Ha') as (_ & _ & _ & _ & _ & E0' & E1' & Es').
  rewrite E0, E1, E0', E1', Es, Es'. destruct (hn_self _ _ HN v d Hv) as [Sv _]. destruct (hn_self _ _ HN v' d' Hv') as [Sv' _].
  destruct (same_msg a a' Ha Ha') as [Em E1'']. rewrite Sv, Sv'. split.
  - intros E. apply (f_equal fst) in E. cbn [fst] in E. exact (sig_inj cfgs T HN Hdeser v d v' d' a a' Hv Hv' E).
  - intros <-. simplify_eq. unfold NetworkNode.the_sig. by rewrite Em, E1''.
Qed.

Section one.
Context (u : string) (c : gconf P) (Hu : cfgs !! u = Some c).
Notation cc := (gc_crypto c).

Record AB (s : gst) : Prop := mkAB {
  ai_frag : forall o, o ∈ bucket s -> frag_ok o;
  ai_nodup : NoDup (signers s);
  ai_len : length (bucket s) <= T;
  ai_black : e ∈ t_black s <-> length (bucket s) = T;
  ai_full : e ∈ t_black s -> exists full, get_tbl s (OFull Acc) !! get_id full = Some full /\ verify cc full = Accept /\ g_type full = ACC_FULL /\ g_p0 full = e /\
    g_signers full = signers s /\ ToMonitor (gc_owner c) full ∈ t_trace s;
  ai_none : e ∉ t_black s -> forall i, i_entity i = e -> get_tbl s (OFull Acc) !! i = None
}.
Definition known (w : string) (s : gst) : Prop := e ∈ t_black s \/ w ∈ signers s.
Definition AI (s : gst) : Prop := AB s /\ forall i a, i_entity i = e -> get_tbl s (OInit Acc) !! i = Some a -> known u s.

Lemma AB_frame s s' : (forall x, x ∈ t_trace s -> x ∈ t_trace s') -> bucket s' = bucket s -> (e ∈ t_black s' <-> e ∈ t_black s) ->
  (forall i, i_entity i = e -> get_tbl s' (OFull Acc) !! i = get_tbl s (OFull Acc) !! i) -> AB s -> AB s'.
Proof using.
  intros Et Eb Ebl Ef [H1 H2 H3 H4 H5 H6]. split.
  - by rewrite Eb.
  - by rewrite Eb.
  - by rewrite Eb.
  - by rewrite Eb, Ebl.
  - rewrite Eb, Ebl. intros Hb. destruct (H5 Hb) as (full & ? & ? & ? & Hp & ? & ?). exists full. split_and!; auto. by rewrite Ef.
  - rewrite Ebl. intros Hb i Hi. rewrite Ef by done. by apply H6.
Qed.

Inductive found (s s' : gst) (out : list post) : Prop :=
| fd_same : bucket s' = bucket s -> (e ∈ t_black s' <-> e ∈ t_black s) -> found s s' out
| fd_add o : bucket s' = (bucket s ++ [o])%list -> frag_ok o -> (e ∈ t_black s -> e ∈ t_black s') -> (forall v, v ∈ gc_neighbours c -> object_post v o ∈ out) -> found s s' out.

Lemma post_in o pre suf : frag_ok o -> forall v, v ∈ gc_neighbours c -> object_post v o ∈ posts (pre ++ sends c o ++ suf).
Proof using HA.
  intros (w & d & a & Hw & _ & Ha & ->) v Hv. rewrite DetectStep.posts_app. apply elem_of_app. right. apply sends_posts; [|done].
  unfold outgoing. by rewrite (proj1 (acc_fields d a Ha)).
Qed.

(** A fragment is handled. *)
Lemma frag_result n s o : GI c s -> AB s -> frag_ok o ->
  exists s' suf, run (handle_n c (S (S n)) o) s = (s', [], Done tt) /\ t_trace s' = (t_trace s ++ suf)%list /\ AB s' /\ found s s' (posts suf) /\
    known (g_signer o) s' /\ get_tbl s' (OInit Acc) = get_tbl s (OInit Acc).
Proof using All.
  intros HI HAB Ho. pose proof HAB as [H1 H2 H3 H4 H5 H6]. destruct Ho as (v & d & a & Hv & Hac & Ha & Eo).
  assert (frag_ok o) as Ho by (by exists v, d, a).
  destruct (acc_fields d a Ha) as (Fk & Fi & F0 & F1 & F2 & Fs & Fs1 & Fsg). rewrite <- Eo in *.
  assert (cc_threshold cc = T) as ET by (by apply (hn_threshold _ _ HN u)).
  assert (cc_thr_scheme cc = "bls") as Hbls by (by apply (hn_scheme _ _ HN u)).
  pose proof (hn_enough _ _ HN) as [HT0 _].
  rewrite (handle_fragment c (S n) Acc) by done.
  assert (forall s0 : gst, s0 = s -> known (g_signer o) s0 -> exists s' suf, (s0, [] : list gtask, Done tt) = (s', [], Done tt) /\ t_trace s' = (t_trace s ++ suf)%list /\ AB s' /\ found s s' (posts suf) /\
    known (g_signer o) s' /\ get_tbl s' (OInit Acc) = get_tbl s (OInit Acc)) as Hsame.
  { intros s0 -> Hk. exists s, []. rewrite app_nil_r. split_and!; auto. by constructor 1. }
  destruct (is_duplicate s o) eqn:Ed.
  { apply Hsame; [done|]. right. unfold is_duplicate in Ed. rewrite Fk, Fi in Ed. fold (bucket s) in Ed. apply existsb_exists in Ed as (x & Hx & Hs).
    apply elem_of_list_In in Hx. apply elem_of_list_fmap. exists x. split; [|done]. apply (frag_sigs o x Ho (H1 x Hx)).
    unfold same_sig in Hs. apply andb_true_iff in Hs as [A B]. apply bool_decide_eq_true in A. apply bool_decide_eq_true in B. congruence. }
  unfold in_blacklist. rewrite F0. case_bool_decide as Hb; [apply Hsame; [done|by left]|]. cbn zeta. rewrite Fi. fold (bucket s). rewrite ET.
  assert (length (bucket s) < T) as Hlt by (assert (length (bucket s) <> T) by (by rewrite <- H4); lia).
  destruct (Nat.ltb_spec (length (bucket s)) T) as [_|]; [|lia].
  assert (bucket (added s Acc o) = (bucket s ++ [o])%list) as Ebk.
  { unfold AccuseNode.bucket. rewrite <- Fi, added_list. done. }
  assert (g_signer o ∉ signers s) as Hnew.
  { intros Hx. apply elem_of_list_fmap in Hx as (x & Ex & Hx). apply (frag_sigs o x Ho (H1 x Hx)) in Ex.
    apply not_true_iff_false in Ed. apply Ed. unfold is_duplicate. rewrite Fk, Fi. fold (bucket s). apply existsb_exists. exists x.
    split; [by apply elem_of_list_In|]. unfold same_sig. injection Ex as E1 E2. by rewrite !bool_decide_eq_true_2. }
  assert (forall x, x ∈ (bucket s ++ [o])%list -> frag_ok x) as Hall.
  { intros x Hx. apply elem_of_app in Hx as [Hx|Hx]; [by apply H1|]. by apply elem_of_list_singleton in Hx as ->. }
  assert (NoDup (map g_signer (bucket s ++ [o]))) as Hnd.
  { rewrite map_app. apply NoDup_app. split_and!; [done| |apply NoDup_singleton]. intros x Hx Hx'. by apply elem_of_list_singleton in Hx' as ->. }
  assert (g_signer o ∈ map g_signer (bucket s ++ [o])) as Hin by (rewrite map_app; apply elem_of_app; right; by left).
  destruct (Nat.eqb_spec (S (length (bucket s))) T) as [ES|ES].
  2: { set (s' := add_trace (added s Acc o) (sends c o)).
       assert (t_trace s' = (t_trace s ++ [EvBefore (get_id o) (length (get_object_list s (get_id o) Acc))] ++ sends c o)%list) as Et.
       { unfold s', added. autorewrite with gst. by rewrite <- app_assoc. }
       assert (bucket s' = (bucket s ++ [o])%list) as Eb' by (rewrite <- Ebk; unfold AccuseNode.bucket, get_object_list, s'; by autorewrite with gst).
       assert (forall k, get_tbl s' k = get_tbl s k) as Etb by (intros k; unfold s'; autorewrite with gst; apply added_tbl).
       assert (t_black s' = t_black s) as Ebl by (unfold s'; autorewrite with gst; apply added_black).
       eexists s', _. split; [reflexivity|]. split; [exact Et|]. split_and!.
       - split; rewrite ?Eb', ?Ebl, ?Etb; auto.
         + rewrite app_length. cbn [length]. lia.
         + rewrite H4, app_length. cbn [length]. lia.
         + done.
       - econstructor 2; [exact Eb'|done|by rewrite Ebl|]. rewrite <- (app_nil_r (sends c o)). by apply post_in.
       - right. by rewrite Eb'.
       - apply Etb. }
  set (l := bucket s) in *.
  assert (exists ts, cc_thr_aggregate cc (frags_of (l ++ [o])) = Some ts) as [ts Hts].
  { unfold cc_thr_aggregate, thr_aggregate, frags_of. rewrite Hbls. cbn [String.eqb Ascii.eqb Bool.eqb]. rewrite map_length, app_length. cbn [length].
    destruct (Nat.ltb_spec (length l + 1) (cc_threshold cc)); [lia|]. by eexists. }
  rewrite Hts. set (full := GossiperFrag.full_of s Acc (hd o l) (l ++ [o]) ts).
  assert (Forall (honest_fragment cc (mkgid p ACC_FRAG e) (g_p1 a) (g_p2 a)) (l ++ [o])) as Hh.
  { apply Forall_forall. intros x Hx. destruct (Hall x Hx) as (w & dw & b & Hw & _ & Hb' & ->).
    destruct (acc_fields dw b Hb') as (_ & Xi & X0 & X1 & X2 & Xs & _). destruct (ac_same _ _ _ _ HA b a Hb' Ha) as (S1 & S2 & _).
    destruct (hn_self _ _ HN w dw Hw) as [Sw Pw]. destruct (hn_keys _ _ HN u c w dw Hu Hw) as (pk & Hpk & Hck).
    split_and!; [done|congruence|congruence|]. exists (the_sig dw b), pk. cbn [sf_id sf_sign NetworkNode.the_sig]. rewrite Sw. split_and!; auto.
    unfold covered. rewrite X0, X1, X2. rewrite <- (proj1 (proj2 (ac_kind _ _ _ _ HA b Hb'))). apply Hck. }
  assert (exists r, (l ++ [o])%list = hd o l :: r) as [r Hr] by (destruct l; [by exists []|by eexists]).
  assert (g_p0 (hd o l) = e) as H0p by (rewrite Hr in Hh; inversion Hh as [|? ? (H0i & _) _]; by injection H0i).
  assert (verify cc full = Accept) as Hvf.
  { eapply (full_accepted c Hagg Hperm Hdeser Hbls s Acc (mkgid p ACC_FRAG e) (g_p1 a) (g_p2 a) _ r); eauto. apply (ac_entity _ _ _ _ HA). }
  assert (obj_kind full = KObj (OFull Acc)) as Hkf by done.
  assert (g_p0 full = e) as Hf0 by (exact H0p).
  set (s1 := add_trace (added s Acc o) [EvFull full]).
  rewrite (handle_aggregate c n Acc) by done.
  assert (get_tbl s1 (OFull Acc) !! get_id full = None) as Hn1.
  { unfold s1. autorewrite with gst. rewrite added_tbl. by apply H6. }
  assert (is_duplicate s1 full = false) as -> by (unfold is_duplicate; by rewrite Hkf, Hn1).
  assert (in_blacklist s1 (g_p0 full) = false) as ->.
  { unfold in_blacklist, s1. autorewrite with gst. rewrite added_black, Hf0. by rewrite bool_decide_eq_false_2. }
  rewrite Hn1. unfold stored_full. rewrite Hvf, decide_True by done.
  set (s2 := add_trace (black_add (inserted s1 (OFull Acc) full) (g_p0 full)) [ToMonitor (gc_owner c) full]).
  destruct (conv_f_fields c s2) as (E1 & E2 & E3 & E4 & E5).
  destruct (black_add_fields (inserted s1 (OFull Acc) full) (g_p0 full)) as (B1 & B2 & B3 & B4 & _).
  set (s' := add_trace (conv_f c s2) (sends c o)).
  assert (forall k, get_tbl s' k = get_tbl (inserted s1 (OFull Acc) full) k) as Etb.
  { intros k. unfold s'. autorewrite with gst. rewrite E1. unfold s2. autorewrite with gst. by rewrite B1. }
  assert (get_tbl s' (OInit Acc) = get_tbl s (OInit Acc)) as Ei.
  { rewrite Etb. unfold inserted. autorewrite with gst. rewrite get_tbl_set_tbl, decide_False by done. unfold s1. autorewrite with gst. apply added_tbl. }
  assert (get_tbl s' (OFull Acc) = <[get_id full := full]> (get_tbl s (OFull Acc))) as Ef.
  { rewrite Etb. unfold inserted. autorewrite with gst. rewrite get_tbl_set_tbl, decide_True by done. unfold s1. autorewrite with gst. by rewrite added_tbl. }
  assert (bucket s' = (l ++ [o])%list) as Eb'.
  { rewrite <- Ebk. unfold AccuseNode.bucket, get_object_list, s'. autorewrite with gst. rewrite E2. unfold s2. autorewrite with gst. rewrite B2. unfold inserted, s1. by autorewrite with gst. }
  assert (e ∈ t_black s') as Hbl.
  { unfold s'. autorewrite with gst. rewrite E3. unfold s2. autorewrite with gst. rewrite B3, Hf0. apply elem_of_union. left. by apply elem_of_singleton. }
  assert (t_trace s' = (t_trace s ++ [EvBefore (get_id o) (length (get_object_list s (get_id o) Acc)); EvFull full; EvStored full; ToMonitor (gc_owner c) full] ++ sends c o)%list) as Et.
  { unfold s'. autorewrite with gst. rewrite E4. unfold s2. autorewrite with gst. rewrite B4. unfold inserted, s1, added. autorewrite with gst. by rewrite <- !app_assoc. }
  eexists s', _. split; [reflexivity|]. split; [exact Et|]. split_and!.
  - split; rewrite ?Eb'; auto.
    + rewrite app_length. cbn [length]. lia.
    + split; [intros _; rewrite app_length; cbn [length]; lia|done].
    + intros _. exists full. split_and!; auto; [by rewrite Ef, lookup_insert|]. rewrite Et. apply elem_of_app. right. do 3 right. by left.
    + done.
  - econstructor 2; [exact Eb'|done|done|]. rewrite <- (app_nil_r (sends c o)). by apply post_in.
  - by left.
  - done.
Qed.

(** An accusation is handled. *)
Lemma init_result n s a : GI c s -> AI s -> a ∈ As -> acd u ->
  exists s' suf, run (handle_n c (S (S (S n))) a) s = (s', [], Done tt) /\ t_trace s' = (t_trace s ++ suf)%list /\ AI s' /\ found s s' (posts suf) /\ known u s'.
Proof using All.
  intros HI HAI Ha Hac. pose proof HAI as [HAB H7]. pose proof HAB as [H1 H2 H3 H4 H5 H6]. destruct (ac_kind _ _ _ _ HA a Ha) as (At & A0 & Ap).
  pose proof (acc_kind a Ha) as Hk.
  assert (cc_threshold cc = T) as ET by (by apply (hn_threshold _ _ HN u)).
  pose proof (hn_enough _ _ HN) as [HT0 _].
  pose proof (ac_accepted _ _ _ _ HA a u c Ha Hu) as Hv.
  assert (forall s0 : gst, s0 = s -> known u s0 -> exists s' suf, (s0, [] : list gtask, Done tt) = (s', [], Done tt) /\ t_trace s' = (t_trace s ++ suf)%list /\ AI s' /\ found s s' (posts suf) /\ known u s') as Hsame.
  { intros s0 -> Hkn. exists s, []. rewrite app_nil_r. split_and!; auto. by constructor 1. }
  change (handle_n c (S (S (S n))) a) with (handle_body c (handle_n c (S (S n))) a).
  unfold handle_body. cbn [pbind pread run]. destruct (is_duplicate s a) eqn:Ed.
  { cbn [pskip run]. apply Hsame; [done|]. unfold is_duplicate in Ed. rewrite Hk in Ed. destruct (get_tbl s (OInit Acc) !! get_id a) as [x|] eqn:Ex; [|done].
    eapply H7; [|exact Ex]. exact A0. }
  cbn [pbind pread run]. unfold in_blacklist at 1. rewrite A0. case_bool_decide as Hb; [cbn [pskip run]; apply Hsame; [done|by left]|].
  rewrite Hk. unfold handle_acc_init. cbn [pbind pread run]. rewrite (no_full_count c) by (auto; by rewrite At). change (Nat.ltb 0 0) with false. cbn iota. cbn [pbind pread run].
  rewrite (no_frag_count c) by (auto; by rewrite At). destruct (Nat.leb_spec (cc_threshold cc) 0); [lia|].
  rewrite run_bind, run_store by done. rewrite Hk, Ed. cbn [negb]. cbn [pbind pread run].
  set (s1 := conv_i c (inserted s (OInit Acc) a)).
  destruct (conv_i_fields c (inserted s (OInit Acc) a)) as (E1 & E2 & E3 & E4 & _). fold s1 in E1, E2, E3, E4.
  assert (t_black s1 = t_black s) as Eb1 by (rewrite E3; unfold inserted; by autorewrite with gst).
  unfold in_blacklist. rewrite A0, Eb1. rewrite bool_decide_eq_false_2 by done.
  assert (cc_thr_sign cc (signed_msg a) = Some (the_sig c a)) as Hsg by (unfold cc_thr_sign; by rewrite (hn_scheme _ _ HN u c Hu)).
  unfold generate_frag. rewrite Hsg. cbn [pbind pmodify run]. change (frag_of c a (sigfrag_string (the_sig c a))) with (fragment_by c a).
  set (s2 := add_trace s1 [EvSigned a (fragment_by c a)]).
  pose proof (walk_GI c) as W.
  assert (GI c (inserted s (OInit Acc) a)) as G0 by (apply (w_insert _ _ _ _ _ _ _ W s a (OInit Acc)); auto; right; eauto).
  assert (GI c s1) as G1.
  { unfold s1, conv_i. destruct (is_init_convergent _ _); [|done]. by apply (w_conv_init _ _ _ _ _ _ _ W). }
  assert (EvStored a ∈ t_trace s1) as Hst by (rewrite E4; unfold inserted; autorewrite with gst; apply elem_of_app; right; by left).
  assert (GI c s2) as G2.
  { apply (GI_trace1 c s1 (EvSigned a (fragment_by c a))); auto; [done|]. cbn. split_and!; auto.
    - apply is_init_kind. by exists Acc.
    - by exists (the_sig c a). }
  assert (bucket s2 = bucket s) as Ebk.
  { unfold AccuseNode.bucket, get_object_list, s2. autorewrite with gst. rewrite E2. unfold inserted. by autorewrite with gst. }
  assert (t_black s2 = t_black s) as Ebl by (unfold s2; by autorewrite with gst).
  assert (get_tbl s2 (OFull Acc) = get_tbl s (OFull Acc)) as Ef.
  { unfold s2. autorewrite with gst. rewrite E1. unfold inserted. autorewrite with gst. by rewrite get_tbl_set_tbl, decide_False. }
  assert (t_trace s2 = (t_trace s ++ [EvStored a; EvSigned a (fragment_by c a)])%list) as Et.
  { unfold s2. autorewrite with gst. rewrite E4. unfold inserted. autorewrite with gst. by rewrite <- app_assoc. }
  assert (AB s2) as HB2.
  { apply (AB_frame s); auto; [|by rewrite Ebl|by rewrite Ef]. intros x Hx. rewrite Et. apply elem_of_app. by left. }
  assert (frag_ok (fragment_by c a)) as Ho by (by exists u, c, a).
  assert (g_signer (fragment_by c a) = u) as Hself by (rewrite (proj2 (proj2 (proj2 (proj2 (proj2 (proj2 (proj2 (acc_fields c a Ha)))))))); by apply (hn_self _ _ HN u c Hu)).
  destruct (frag_result n s2 (fragment_by c a) G2 HB2 Ho) as (s' & suf & Er & Et' & HB' & Hf & Hkn & Ei). rewrite Hself in Hkn.
  exists s', ([EvStored a; EvSigned a (fragment_by c a)] ++ suf)%list. rewrite Er. split; [done|]. split; [by rewrite Et', Et, <- app_assoc|].
  split_and!; [by split|..|done].
  destruct Hf as [F1 F2|o F1 F2 F3 F4].
  - constructor 1; [by rewrite F1|by rewrite F2, Ebl].
  - econstructor 2; [by rewrite F1, Ebk|done|by rewrite <- Ebl|]. exact F4.
Qed.

(** ** Events *)
Definition fair_event (ev : gevent) : Prop :=
  match ev with Recv _ g => fair cfgs e As acd stm u g /\ (g_p0 g = e -> obj_kind g <> KObj (OFull Acc)) | Period => False | _ => True end.
Notation DI := (AccuseNode.DI cfgs e As acd stm u c).
Notation FI := (AccuseNode.FI cfgs e p As acd stm u c).
Definition JA (y : gsys) : Prop := DI (s_st y) /\ Forall (λ t, Etok t (s_st y)) (s_tasks y) /\ AI (s_st y).

Lemma self_u : cc_self cc = u.
Proof using HN Hu. by apply (hn_self _ _ HN u c Hu). Qed.
Notation W := (walk_fair cfgs e p As HA acd stm Hstm u c Hu self_u).

Notation request := "/gossip/new_payload_request".
Lemma note_DA s url n : DI s -> keeps DI GR s (add_trace s [ToGossiper url request (MNote n)]).
Proof using.
  intros HI. apply AccuseNode.DI_frame; auto; try (intros; by autorewrite with gst).
  - apply GI_trace1; [done|done|apply HI].
  - intros v ep' g. autorewrite with gst. rewrite elem_of_app, elem_of_list_singleton. intros [Hg|[= -> -> ->]]; [by left|right]. apply DetectNode.note_path.
Qed.

Lemma reply_DA s0 s j o url : DI s0 -> t_payload s0 !! j = Some o -> GR s0 s -> DI s ->
  keeps DI GR s (add_trace s [ToGossiper url "/gossip/rev_init" (MObj o)]).
Proof using.
  intros I0 Ho HR HI. apply AccuseNode.DI_frame; auto; try (intros; by autorewrite with gst).
  - apply GI_trace1; [done| |apply HI]. cbn. right. destruct I0 as ((_ & H2 & _) & _). apply H2 in Ho as (Hv & _ & Ht). split; [done|]. right. by left.
  - intros v ep' g. autorewrite with gst. rewrite elem_of_app, elem_of_list_singleton. intros [Hg|[= _ -> ->]]; [by left|right].
    destruct I0 as (_ & I2 & _). cbn. by eapply I2.
Qed.

Lemma exec_DA pr y ts : DI (s_st y) -> Forall (λ t, Etok t (s_st y)) ts -> safe DI GR Etok (λ _, True) (λ _ _, True) pr (s_st y) ->
  DI (s_st (exec pr y ts)) /\ Forall (λ t, Etok t (s_st (exec pr y ts))) (s_tasks (exec pr y ts)).
Proof using All.
  intros HI HK Hs. pose proof (safe_run DI GR Etok (λ _, True) (PreOrder0:=w_pre _ _ _ _ _ _ _ W) (w_tok _ _ _ _ _ _ _ W) _ pr (s_st y) HI Hs) as HR.
  unfold exec. destruct (run pr (s_st y)) as [[s' new] [x|w]]; destruct HR as (H1 & H2 & H3 & H4);
    (split; cbn; [done|]); (apply Forall_app; split; [|done]); (eapply Forall_impl; [exact HK|]); intros t Ht; cbn in *; by eapply (w_tok _ _ _ _ _ _ _ W).
Qed.

Lemma rebuilt s g : obj_kind g = KFrag Rev -> fair cfgs e As acd stm u (reconstruct_payload s g).
Proof using. intros H. apply fair_other. by rewrite reconstructed. Qed.

Lemma step_DA y ev : fair_event ev -> JA y -> DI (s_st (step c y ev)) /\ Forall (λ t, Etok t (s_st (step c y ev))) (s_tasks (step c y ev)).
Proof using All.
  intros He (HI & HK & _). destruct ev as [n g|n|n|j|q sec st|]; cbn [step fair_event] in *; [..|done].
  - apply exec_DA; auto. eapply s_object; [exact W|apply He|]. intros s1 I1 _ Hk. by apply rebuilt.
  - apply exec_DA; auto. apply DetectStep.s_note; [|apply (w_pre _ _ _ _ _ _ _ W)]. intros. by apply note_DA.
  - apply exec_DA; auto. eapply s_request; [exact W|]. intros s0 s j o url A1 A2 A3 A4. by apply (reply_DA s0 s j o url).
  - destruct (nth_error (s_tasks y) j) as [t|] eqn:E; [|done]. apply nth_split in E. rewrite E in HK.
    apply Forall_app in HK as [T1 T2]. apply Forall_cons in T2 as [T2 T3].
    apply exec_DA; auto; [by apply Forall_app|]. by eapply s_start; [exact W|].
  - split; cbn [s_st s_tasks].
    + apply (AccuseNode.DI_frame cfgs e As acd stm u c (s_st y)); auto; try (intros; by autorewrite with gst).
      * apply GI_frame; [..|apply HI]; intros; by autorewrite with gst.
      * intros v ep g. autorewrite with gst. by left.
    + eapply Forall_impl; [exact HK|]. intros [g] [[H1 H2] H3]. split; [|done]. split; [|done]. unfold GD in *. by autorewrite with gst.
Qed.

Lemma rest_result y (pr : gprog unit) ts : JA y -> safe (FI (s_st y)) GR Etok (λ _, True) (λ _ _, True) pr (s_st y) ->
  found (s_st y) (s_st (exec pr y ts)) (out_of y (exec pr y ts)) /\ AI (s_st (exec pr y ts)).
Proof using All.
  intros (HI & _ & HB & Hini) Hs. pose proof (walk_rest cfgs e p As HA acd stm Hstm u c Hu self_u (s_st y)) as WR.
  assert (FI (s_st y) (s_st y)) as HF by (by split_and!).
  pose proof (safe_run (FI (s_st y)) GR Etok (λ _, True) (PreOrder0:=w_pre _ _ _ _ _ _ _ WR) (w_tok _ _ _ _ _ _ _ WR) _ pr (s_st y) HF Hs) as HR.
  assert (forall s', FI (s_st y) s' -> GR (s_st y) s' -> forall out, found (s_st y) s' out /\ AI s') as Hdone.
  { intros s' (_ & F1 & F2 & F3 & F4) [k Hk] out. split; [by constructor 1|]. split.
    - apply (AB_frame (s_st y)); auto. intros x Hx. rewrite Hk. apply elem_of_app. by left.
    - intros i a Hi. rewrite F3 by done. intros Hx. unfold known. rewrite F1, F4. by eapply Hini. }
  unfold exec. destruct (run pr (s_st y)) as [[s' new] [x|w]]; destruct HR as (H1 & H2 & _); by apply Hdone.
Qed.

Lemma step_found y ev : JA y -> fair_event ev -> let y' := step c y ev in
  JA y' /\ found (s_st y) (s_st y') (out_of y y') /\
  match ev with Recv _ g => (frag_ok g -> known (g_signer g) (s_st y')) /\ (g ∈ As -> known u (s_st y')) | _ => True end.
Proof using All.
  intros HJ Hev. cbn zeta. destruct (step_DA y ev Hev HJ) as [D1 D2]. pose proof HJ as (HI & HK & HAI).
  pose proof (walk_rest cfgs e p As HA acd stm Hstm u c Hu self_u (s_st y)) as WR.
  assert (forall s' x, FI (s_st y) s' -> keeps DI GR s' (add_trace s' [x]) -> keeps (FI (s_st y)) GR s' (add_trace s' [x])) as Htr.
  { intros s' x H1 H2. apply AccuseNode.FI_frame; auto; intros; by autorewrite with gst. }
  assert (forall (R : Prop), found (s_st y) (s_st (step c y ev)) (out_of y (step c y ev)) /\ AI (s_st (step c y ev)) -> R ->
    JA (step c y ev) /\ found (s_st y) (s_st (step c y ev)) (out_of y (step c y ev)) /\ R) as Hfin by (intros R [A1 A2] HR; by split_and!).
  destruct ev as [n g|n|n|j|q sec st|]; cbn [step fair_event] in *; [..|done].
  - destruct Hev as [Hg Hnf].
    assert (forall o, frag_ok o -> g_p0 o = e /\ obj_kind o = KFrag Acc) as Hfk.
    { intros o (w & d & a & _ & _ & Ha & ->). destruct (acc_fields d a Ha) as (? & _ & ? & _). done. }
    assert (core e g \/ ~ core e g) as [[Hp Hc]|Hc].
    { destruct (decide (g_p0 g = e)) as [Hp|]; [|right; by intros [? _]]. unfold core. destruct (obj_kind g) as [[[]| |[]]|[]|]; try (right; intros [_ ?]; done); by left. }
    2: { apply Hfin; [apply rest_result; [done|]; eapply s_object; [exact WR|by split|]|].
         - intros s1 I1 _ Hk. split; [by apply rebuilt|]. intros [_ H]. by rewrite reconstructed in H.
         - split.
           + intros Ho. destruct (Hfk g Ho) as [H1 H2]. exfalso. apply Hc. split; [done|]. by rewrite H2.
           + intros Ha. exfalso. apply Hc. split; [apply (ac_kind _ _ _ _ HA g Ha)|]. by rewrite (acc_kind g Ha). }
    assert (obj_kind g = KObj (OInit Acc) \/ obj_kind g = KFrag Acc) as Hk.
    { specialize (Hnf Hp). destruct (obj_kind g) as [[[]| |[]]|[]|]; auto; done. }
    specialize (Hg Hp).
    assert (run (object_handler c n g) (s_st y) = run (handle c g) (s_st y)) as Eh.
    { unfold object_handler. destruct Hk as [-> | ->]; rewrite !(bool_decide_eq_false_2 (_ = _)) by done; by rewrite !andb_false_r. }
    assert (exists s' suf, run (handle c g) (s_st y) = (s', [], Done tt) /\ t_trace s' = (t_trace (s_st y) ++ suf)%list /\ AI s' /\ found (s_st y) s' (posts suf) /\
      (frag_ok g -> known (g_signer g) s') /\ (g ∈ As -> known u s')) as (s' & suf & Er & Et & HA' & Hf & Hk1 & Hk2).
    { destruct Hk as [Hk|Hk]; rewrite Hk in Hg.
      - destruct Hg as [Ha Hac]. destruct (init_result 0 (s_st y) g (proj1 HI) HAI Ha Hac) as (s' & suf & R1 & R2 & R3 & R4 & R5).
        exists s', suf. split_and!; auto. intros Ho. destruct (Hfk g Ho) as [_ E]. congruence.
      - destruct HAI as [HB Hini]. destruct (frag_result 1 (s_st y) g (proj1 HI) HB Hg) as (s' & suf & R1 & R2 & R3 & R4 & R5 & R6).
        exists s', suf. split_and!; auto; [|intros Ha; apply acc_kind in Ha; congruence]. split; [done|]. intros i a Hi. rewrite R6. intros Hx.
        unfold known. destruct (Hini i a Hi Hx) as [Hb|Hs]; destruct R4 as [F1 F2|o F1 F2 F3 F4].
        + left. by apply F2.
        + left. by apply F3.
        + right. by rewrite F1.
        + right. rewrite F1, map_app. apply elem_of_app. by left. }
    assert (s_st (exec (object_handler c n g) y (s_tasks y)) = s') as Es by (unfold exec; by rewrite Eh, Er).
    split; [split; [exact D1|split; [exact D2|by rewrite Es]]|]. rewrite (out_suffix _ _ suf) by (by rewrite Es). rewrite Es. by split.
  - apply Hfin; [|done]. apply rest_result; [done|]. apply DetectStep.s_note; [|apply (w_pre _ _ _ _ _ _ _ WR)]. intros s1 url nn I1. apply Htr; [done|]. apply note_DA. apply I1.
  - apply Hfin; [|done]. apply rest_result; [done|]. eapply s_request; [exact WR|]. intros s0 s1 j o url A1 A2 A3 A4. apply Htr; [done|]. apply (reply_DA s0 s1 j o url); auto; [apply A1|apply A4].
  - apply Hfin; [|done]. destruct (nth_error (s_tasks y) j) as [t|] eqn:E; [|split; [by constructor 1|done]].
    apply rest_result; [done|]. eapply s_start; [exact WR|]. rewrite Forall_forall in HK. apply HK. apply elem_of_list_In. by eapply nth_error_In.
  - apply Hfin; [|done]. destruct HAI as [HB Hini]. cbn [s_st]. split.
    + constructor 1; [unfold AccuseNode.bucket, get_object_list|]; by autorewrite with gst.
    + split.
      * apply (AB_frame (s_st y)); auto; [..]; intros; unfold AccuseNode.bucket, get_object_list; by autorewrite with gst.
      * intros i a Hi. autorewrite with gst. intros Hx. unfold known, AccuseNode.bucket, get_object_list. autorewrite with gst. by eapply Hini.
Qed.

Lemma JA_init q sec st : JA (init_gsys q sec st).
Proof using All.
  pose proof (hn_enough _ _ HN) as [HT0 _]. split; [|split; [by constructor|]].
  - split_and!; cbn.
    + apply GI_init.
    + intros j o. by rewrite lookup_empty.
    + intros k j o. destruct k as [[]| |[]]; cbn; by rewrite lookup_empty.
    + intros w ep g Hg. by apply elem_of_nil in Hg.
    + intros j x. by rewrite lookup_empty.
  - assert (bucket (s_st (init_gsys q sec st)) = []) as Eb by (unfold AccuseNode.bucket, get_object_list, frags_at; cbn; by rewrite lookup_empty).
    split.
    + split; rewrite ?Eb; cbn.
      * intros o Ho. by apply elem_of_nil in Ho.
      * constructor.
      * lia.
      * split; [set_solver|lia].
      * set_solver.
      * intros _ i _. by rewrite lookup_empty.
    + intros i a _. cbn. by rewrite lookup_empty.
Qed.
End one.
End step.
