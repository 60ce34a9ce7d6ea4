(** C94 *)
From Verif Require Import Bytes Hex Json Types Crypto Verify Prog Gossiper Network Overlap SpecVerify SpecGossiper SpecNetwork SpecOverlap SpecDetect SpecOverlapDetect Toy RefuteGossiper RefuteNetwork RefuteOverlap OverlapDetectNet RefuteOverlapDetect.
Open Scope string_scope.

(** C94: conflicting statements are noticed however the handlers of a gossiper interleave.
    Refuted: handlers that looked for a version before another handler stored one
    overwrite it, at every gossiper. *)
Theorem C94_overlapping_refuted : exists (P : prims) (cfgs : gmap string (gconf P)) p sec st a b l,
  connected cfgs /\ equivocation cfgs a b /\ (forall w g, OHand w g ∈ l -> g = a \/ g = b) /\
  (exists u, OHand u a ∈ l /\ is_Some (cfgs !! u)) /\ (exists v, OHand v b ∈ l /\ is_Some (cfgs !! v)) /\
  let N := onet_run cfgs (onet_init cfgs p sec st) l in
  oquiescent N /\ forall w (y : gpool), on_nodes N !! w = Some y -> t_black (p_st y) = ∅.
Proof. exact race_refuted. Qed.
Print Assumptions C94_overlapping_refuted.

(** If no gossiper is handed two versions itself, everybody finds out, for every interleaving. *)
Theorem C94_overlapping_partial : forall (P : prims) (cfgs : gmap string (gconf P)), connected cfgs ->
  forall p sec st a b l u v, equivocation cfgs a b ->
  (forall w g, OHand w g ∈ l -> harmless cfgs a g) -> one_version a l ->
  OHand u a ∈ l -> OHand v b ∈ l -> is_Some (cfgs !! u) -> is_Some (cfgs !! v) ->
  let N := onet_run cfgs (onet_init cfgs p sec st) l in oquiescent N ->
  forall w c, cfgs !! w = Some c -> exists (y : gpool) con, on_nodes N !! w = Some y /\
    g_p0 a ∈ t_black (p_st y) /\ t_con_init (p_st y) !! get_id con = Some con /\
    g_type con = CON_INIT /\ g_p0 con = g_p0 a /\ verify (gc_crypto c) con = Accept.
Proof. exact @overlap_detected. Qed.
Print Assumptions C94_overlapping_partial.

Example C94_overlapping_example : connected plain3 /\ equivocation plain3 sth_a sth_b /\
  (forall w g, OHand w g ∈ run_split -> harmless plain3 sth_a g) /\ one_version sth_a run_split /\
  OHand "g1" sth_a ∈ run_split /\ OHand "g2" sth_b ∈ run_split /\ is_Some (plain3 !! "g1") /\ is_Some (plain3 !! "g2") /\
  oquiescent (onet_run plain3 (onet_init plain3 "07" "s" "t") run_split).
Proof. exact split_hypotheses. Qed.
