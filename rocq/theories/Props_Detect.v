(** Detection of misbehaviour in a network of gossipers. *)
From Verif Require Import Bytes Hex Json Types Crypto Verify Prog Gossiper Network SpecVerify SpecGossiper SpecCodec SpecNetwork SpecDetect SpecAccuse Toy RefuteGossiper RefuteNetwork DetectFacts RefuteDetect AccuseFacts RefuteAccuse.
Open Scope string_scope.

(** C89: whoever signs two statements for one identifier is found out by everybody.
    Refuted: a third party without any key hands in a third version, the first
    one under another name. *)
Theorem C89_found_out_refuted : exists (P : prims) (cfgs : gmap string (gconf P)) p sec st a b l,
  connected cfgs /\ equivocation cfgs a b /\
  (forall w g, NHand w g ∈ l -> g = a \/ g = b \/ respelled a g) /\
  (exists u, NHand u a ∈ l /\ is_Some (cfgs !! u)) /\ (exists v, NHand v b ∈ l /\ is_Some (cfgs !! v)) /\
  let N := net_run cfgs (net_init cfgs p sec st) l in
  quiescent N /\ forall w y, nt_nodes N !! w = Some y -> t_black (s_st y) = ∅.
Proof. exact hidden_refuted. Qed.
Print Assumptions C89_found_out_refuted.

(** Nobody interfering, everybody blacklists the signer and holds a proof of it. *)
Theorem C89_found_out_partial : forall (P : prims) (cfgs : gmap string (gconf P)), connected cfgs ->
  forall p sec st a b l u v, equivocation cfgs a b ->
  (forall w g, NHand w g ∈ l -> harmless cfgs a g) ->
  NHand u a ∈ l -> NHand v b ∈ l -> is_Some (cfgs !! u) -> is_Some (cfgs !! v) ->
  let N := net_run cfgs (net_init cfgs p sec st) l in nt_flight N = [] ->
  forall w c, cfgs !! w = Some c -> exists y con, nt_nodes N !! w = Some y /\
    g_p0 a ∈ t_black (s_st y) /\ t_con_init (s_st y) !! get_id con = Some con /\
    g_type con = CON_INIT /\ g_p0 con = g_p0 a /\ verify (gc_crypto c) con = Accept.
Proof. exact @detected. Qed.
Print Assumptions C89_found_out_partial.

Example C89_found_out_example : connected plain3 /\ equivocation plain3 sth_a sth_b /\
  (forall w g, NHand w g ∈ run_ab -> harmless plain3 sth_a g) /\
  NHand "g1" sth_a ∈ run_ab /\ NHand "g2" sth_b ∈ run_ab /\
  is_Some (plain3 !! "g1") /\ is_Some (plain3 !! "g2") /\
  nt_flight (net_run plain3 (net_init plain3 "07" "s" "t") run_ab) = [].
Proof. exact run_ab_hypotheses. Qed.

(** C90: an entity that threshold gossipers accuse is blacklisted by all.
    Refuted: one made-up fragment, which nobody would accept, handed in by anybody. *)
Theorem C90_accused_refuted : exists (P : prims) (cfgs : gmap string (gconf P)) T p sec st e As j us l,
  honest_network cfgs T /\ accusations cfgs e p As /\
  (forall w g, NHand w g ∈ l -> g ∈ As \/ g = j) /\ (forall u c, cfgs !! u = Some c -> verify (gc_crypto c) j = Reject) /\
  NoDup us /\ length us = T /\ (forall u, u ∈ us -> is_Some (cfgs !! u) /\ accuser As l u) /\
  let N := net_run cfgs (net_init cfgs p sec st) l in
  quiescent N /\ forall w y, nt_nodes N !! w = Some y -> t_black (s_st y) = ∅.
Proof. exact spoiled_refuted. Qed.
Print Assumptions C90_accused_refuted.

(** Undisturbed, every gossiper blacklists the entity, holds a verified aggregate of the
    accusations and has sent it to its monitor. *)
Theorem C90_accused_partial : forall (P : prims) (cfgs : gmap string (gconf P)) T, honest_network cfgs T ->
  agg_correct P -> fast_perm P -> (forall sg : bls_sig P, bls_deser (bls_ser sg) = Some sg) ->
  forall e p As, accusations cfgs e p As -> forall l, undisturbed e As l -> forall q sec st us,
  let N := net_run cfgs (net_init cfgs q sec st) l in
  nt_flight N = [] -> NoDup us -> length us = T -> (forall u, u ∈ us -> is_Some (cfgs !! u) /\ accuser As l u) ->
  forall v d, cfgs !! v = Some d -> exists y full, nt_nodes N !! v = Some y /\ e ∈ t_black (s_st y) /\
    t_acc_full (s_st y) !! get_id full = Some full /\ g_type full = ACC_FULL /\ g_p0 full = e /\ verify (gc_crypto d) full = Accept /\
    ToMonitor (gc_owner d) full ∈ t_trace (s_st y).
Proof. exact @accused_blacklisted. Qed.
Print Assumptions C90_accused_partial.

Example C90_accused_example : honest_network plain3 2 /\ accusations plain3 log1 "07" [acc_ca; acc_lg] /\
  undisturbed log1 [acc_ca; acc_lg] run_acc /\
  nt_flight (net_run plain3 (net_init plain3 "07" "s" "t") run_acc) = [] /\
  (forall u, u ∈ ["g1"; "g2"] -> is_Some (plain3 !! u) /\ accuser [acc_ca; acc_lg] run_acc u).
Proof. exact run_acc_hypotheses. Qed.

(** C91: an entity is blacklisted for accusations only if threshold parties accuse it.
    Refuted twice.  One accusation of one party does, if it is handed to threshold gossipers. *)
Theorem C91_accusers_refuted : exists (P : prims) (cfgs : gmap string (gconf P)) T p sec st e a l,
  honest_network cfgs T /\ 1 < T /\ accusations cfgs e p [a] /\ (forall w g, NHand w g ∈ l -> g = a) /\
  let N := net_run cfgs (net_init cfgs p sec st) l in
  forall w y, nt_nodes N !! w = Some y -> e ∈ t_black (s_st y).
Proof. exact single_refuted. Qed.
Print Assumptions C91_accusers_refuted.

(** One accusation handed to one gossiper does, if its fragment is handed in again under a
    new second signature. *)
Theorem C91_gossipers_refuted : exists (P : prims) (cfgs : gmap string (gconf P)) T p sec st e a u c g y,
  honest_network cfgs T /\ 1 < T /\ accusations cfgs e p [a] /\ cfgs !! u = Some c /\ relabelled (fragment_by c a) g /\
  nt_nodes (net_run cfgs (net_init cfgs p sec st) [NHand u a; NHand u g]) !! u = Some y /\ e ∈ t_black (s_st y).
Proof. exact twice_refuted. Qed.
Print Assumptions C91_gossipers_refuted.

(** Undisturbed, threshold different gossipers have been handed an accusation; the stored
    aggregate names them. *)
Theorem C91_accusers_partial : forall (P : prims) (cfgs : gmap string (gconf P)) T, honest_network cfgs T ->
  agg_correct P -> fast_perm P -> (forall sg : bls_sig P, bls_deser (bls_ser sg) = Some sg) ->
  forall e p As, accusations cfgs e p As -> forall l, undisturbed e As l -> forall q sec st v y,
  let N := net_run cfgs (net_init cfgs q sec st) l in
  nt_nodes N !! v = Some y -> e ∈ t_black (s_st y) ->
  exists us, NoDup us /\ length us = T /\ (forall u, u ∈ us -> is_Some (cfgs !! u) /\ accuser As l u) /\
    exists full, t_acc_full (s_st y) !! get_id full = Some full /\ g_signers full = us.
Proof. exact @blacklisted_accused. Qed.
Print Assumptions C91_accusers_partial.

Example C91_accusers_example : honest_network plain3 2 /\ accusations plain3 log1 "07" [acc_ca; acc_lg] /\
  undisturbed log1 [acc_ca; acc_lg] run_acc /\
  forall w y, nt_nodes (net_run plain3 (net_init plain3 "07" "s" "t") run_acc) !! w = Some y -> log1 ∈ t_black (s_st y).
Proof. exact run_acc_black. Qed.
