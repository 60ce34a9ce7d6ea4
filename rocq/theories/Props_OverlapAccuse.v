(** C115, C116 *)
From Verif Require Import Bytes Hex Json Types Crypto Verify Prog Gossiper Network Overlap SpecVerify SpecGossiper SpecNetwork SpecOverlap SpecAccuse SpecOverlapAccuse Toy RefuteGossiper RefuteNetwork RefuteOverlap RefuteAccuse OverlapAccuseNet RefuteOverlapAccuse.
Open Scope string_scope.

(** C115: an entity that threshold gossipers accuse is blacklisted by all, however the
    handlers of a gossiper interleave.
    Refuted: one of the accusers has counted a fragment of the other one twice, and makes
    none itself. *)
Theorem C115_overlapping_refuted : exists (P : prims) (cfgs : gmap string (gconf P)) T p sec st e As us l,
  honest_network cfgs T /\ accusations cfgs e p As /\ (forall w g, OHand w g ∈ l -> g ∈ As) /\
  NoDup us /\ length us = T /\ (forall u, u ∈ us -> is_Some (cfgs !! u) /\ oaccuser As l u) /\
  let N := onet_run cfgs (onet_init cfgs p sec st) l in
  oquiescent N /\ exists v y, on_nodes N !! v = Some y /\ t_black (p_st y) = ∅.
Proof. exact late_refuted. Qed.
Print Assumptions C115_overlapping_refuted.

(** If the accusers have not stored a fragment twice, everybody blacklists the entity, holds
    a verified aggregate of the accusations and has sent it to its monitor. *)
Theorem C115_overlapping_partial : forall (P : prims) (cfgs : gmap string (gconf P)) T, honest_network cfgs T ->
  agg_correct P -> fast_perm P -> (forall sg : bls_sig P, bls_deser (bls_ser sg) = Some sg) ->
  forall e p As, accusations cfgs e p As -> forall l, oundisturbed e As l -> forall q sec st us,
  let N := onet_run cfgs (onet_init cfgs q sec st) l in
  oquiescent N -> NoDup us -> length us = T -> (forall u, u ∈ us -> is_Some (cfgs !! u) /\ oaccuser As l u) ->
  (forall u y, u ∈ us -> on_nodes N !! u = Some y -> NoDup (accusation_signers p e (p_st y))) ->
  forall v d, cfgs !! v = Some d -> exists y full, on_nodes N !! v = Some y /\ e ∈ t_black (p_st y) /\
    t_acc_full (p_st y) !! get_id full = Some full /\ g_type full = ACC_FULL /\ g_p0 full = e /\ verify (gc_crypto d) full = Accept /\
    ToMonitor (gc_owner d) full ∈ t_trace (p_st y).
Proof. exact @overlapping_accused. Qed.
Print Assumptions C115_overlapping_partial.

Example C115_overlapping_example : honest_network plain3 2 /\ accusations plain3 log1 "07" [acc_ca; acc_lg] /\ oundisturbed log1 [acc_ca; acc_lg] run_both /\
  oquiescent (onet_run plain3 (onet_init plain3 "07" "s" "t") run_both) /\
  (forall u, u ∈ ["g1"; "g2"] -> is_Some (plain3 !! u) /\ oaccuser [acc_ca; acc_lg] run_both u) /\
  (forall u y, u ∈ ["g1"; "g2"] -> on_nodes (onet_run plain3 (onet_init plain3 "07" "s" "t") run_both) !! u = Some y ->
     NoDup (accusation_signers "07" log1 (p_st y))) /\
  exists y, on_nodes (onet_run plain3 (onet_init plain3 "07" "s" "t") run_both) !! "g3" = Some y /\ log1 ∈ t_black (p_st y) /\
     NoDup (accusation_signers "07" log1 (p_st y)).
Proof. exact both_hypotheses. Qed.

(** C116: an entity is blacklisted for accusations only if threshold gossipers are handed
    one, however the handlers of a gossiper interleave.
    Refuted: one accusation is handed to one gossiper, and nothing else is handed to
    anybody.  Its fragment reaches another gossiper twice. *)
Theorem C116_overlapping_refuted : exists (P : prims) (cfgs : gmap string (gconf P)) T p sec st e a u l,
  honest_network cfgs T /\ 1 < T /\ accusations cfgs e p [a] /\ (forall w g, OHand w g ∈ l -> w = u /\ g = a) /\
  let N := onet_run cfgs (onet_init cfgs p sec st) l in
  oquiescent N /\ exists v y, on_nodes N !! v = Some y /\ e ∈ t_black (p_st y).
Proof. exact counted_twice_refuted. Qed.
Print Assumptions C116_overlapping_refuted.

(** It has then stored threshold fragments, not necessarily different ones, and all of them
    were made by gossipers that were handed an accusation. *)
Theorem C116_overlapping_partial : forall (P : prims) (cfgs : gmap string (gconf P)) T, honest_network cfgs T ->
  agg_correct P -> fast_perm P -> (forall sg : bls_sig P, bls_deser (bls_ser sg) = Some sg) ->
  forall e p As, accusations cfgs e p As -> forall l, oundisturbed e As l -> forall q sec st v (y : gpool),
  let N := onet_run cfgs (onet_init cfgs q sec st) l in
  on_nodes N !! v = Some y -> e ∈ t_black (p_st y) ->
  T <= length (accusation_signers p e (p_st y)) /\
  forall u, u ∈ accusation_signers p e (p_st y) -> is_Some (cfgs !! u) /\ oaccuser As l u.
Proof. exact @overlapping_only. Qed.
Print Assumptions C116_overlapping_partial.

Example C116_overlapping_example : honest_network plain3 2 /\ accusations plain3 log1 "07" [acc_ca; acc_lg] /\ oundisturbed log1 [acc_ca; acc_lg] run_both /\
  exists y, on_nodes (onet_run plain3 (onet_init plain3 "07" "s" "t") run_both) !! "g3" = Some y /\ log1 ∈ t_black (p_st y).
Proof. destruct both_hypotheses as (H1 & H2 & H3 & _ & _ & _ & y & H4 & H5 & _). exact (conj H1 (conj H2 (conj H3 (ex_intro _ y (conj H4 H5))))). Qed.
