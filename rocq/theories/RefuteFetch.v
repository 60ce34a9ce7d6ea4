(** Announcements that are not followed by the object. *)
From Verif Require Import Bytes Hex Json Types Crypto Verify Prog Gossiper SpecGossiper Toy ToyFacts RefuteGossiper Fetch.
From Coq Require Import Lia.
Open Scope string_scope.

(** [rev_a] with the second payload moved into the first: the same bytes are signed and hashed. *)
Definition rev_moved : gobj :=
  let '(mkobj a p t s ss s0 s1 ti sc p0 p1 p2) := rev_a in mkobj a p t s ss s0 s1 ti sc p0 (p1 ++ p2) "".
Lemma same_hash : rev_moved <> rev_a /\ get_id rev_moved = get_id rev_a /\ verify (gc_crypto cfg1) rev_moved = Accept /\ verify (gc_crypto cfg1) rev_a = Accept /\
  obj_hash (P := toy) rev_moved = obj_hash (P := toy) rev_a.
Proof. split; [intros E; vm_compute in E; discriminate|]. split_and!; vm_compute; reflexivity. Qed.

Definition held_moved : gst := s_st (steps cfg1 y1 [Recv 1000 rev_moved]).
Lemma moved_not_fetched : exists (P : prims) (cfg : gconf P) s g g', reachable cfg s /\ g_type g = REV_INIT /\ verify (gc_crypto cfg) g = Accept /\ g <> g' /\
  t_payload s !! get_id g = Some g' /\ t_rev_init s !! get_id g <> Some g /\
  run (notification_handler cfg (mknote "g2" (g_period g) REV_INIT (g_p0 g) (obj_hash (P:=P) g))) s = (s, [], Done tt).
Proof.
  destruct same_hash as (H1 & H2 & H3 & H4 & H5).
  assert (t_payload held_moved !! get_id rev_a = Some rev_moved) as Hp by (vm_compute; reflexivity).
  exists toy, cfg1, held_moved, rev_a, rev_moved. split; [apply steps_reach|]. split; [vm_compute; reflexivity|]. split; [done|]. split; [congruence|]. split; [exact Hp|].
  split; [intros E; vm_compute in E; discriminate|]. apply (not_asked cfg1 held_moved "g2" rev_a rev_moved); [vm_compute; reflexivity|exact Hp|done].
Qed.
Lemma fetch_instance : reachable cfg1 (s_st y1) /\ 0 < cc_threshold (gc_crypto cfg1) /\ g_type rev_a = REV_INIT /\ verify (gc_crypto cfg1) rev_a = Accept /\
  t_rev_init (s_st y1) !! get_id rev_a = None /\ t_payload (s_st y1) !! get_id rev_a = None /\ g_signer rev_a <> "" /\ g_p0 rev_a <> "" /\ g_p0 rev_a ∉ t_black (s_st y1) /\
  (gc_opt_threshold cfg1 < Z.of_nat (String.length (gobj_marshal rev_a)))%Z /\ (gc_opt_threshold cfg1 < 1000)%Z /\ (-1 <= gc_opt_threshold cfg1)%Z.
Proof.
  split; [apply (steps_reach cfg1 "07" "s" "t" [])|]. split; [vm_compute; lia|]. split; [vm_compute; reflexivity|]. split; [vm_compute; reflexivity|]. split; [vm_compute; reflexivity|].
  split; [vm_compute; reflexivity|]. split; [discriminate|]. split; [discriminate|]. split; [cbn; set_solver|]. split; [vm_compute; reflexivity|]. split; vm_compute; congruence.
Qed.
