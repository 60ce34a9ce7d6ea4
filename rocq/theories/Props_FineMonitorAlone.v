(** What a monitor does when nothing else happens meanwhile: the model with interleaved goroutines (FineMonitor.v) against the sequential one (Monitor.v). *)
From Verif Require Import Bytes Types Crypto Verify Bitset Revocation Clock Monitor FineMonitor SpecFineMonitor SpecFineMonitorAlone FineMonitorAlone FineMonitorTask.
From Verif Require Import Toy RefuteVerify RefuteCA RefuteMonitor RefuteFineMonitor.
Open Scope string_scope.

(* ---------------------------------------------------------------- *)
(** C145: without overlap, a gossiped object is handled as the sequential description says ... *)
Theorem C145_gossip {P : prims} z (c : mconf (P := P)) m stamp k s g :
  exists n, frun z c (mkfm s []) (FGossip g :: repeat (FStep 0 m stamp k) n) = Some (mkfm (fst (handle_gossip z c s g)) [], map fo (snd (handle_gossip z c s g))).
Proof. exact (@gossip_alone P z c m stamp s g k). Qed.
Print Assumptions C145_gossip.

(** ... so is an answer of a logger or CA ... *)
Theorem C145_reply {P : prims} z (c : mconf (P := P)) m stamp k s f url r s' o : handle_reply z c s f url r = Some (s', o) ->
  exists n, frun z c (mkfm s []) (FReply f url r :: repeat (FStep 0 m stamp k) n) = Some (mkfm s' [], map fo o).
Proof. exact (@reply_alone P z c m stamp s f url r k s' o). Qed.
Print Assumptions C145_reply.

(** ... including those that stop the process ... *)
Theorem C145_panics {P : prims} z (c : mconf (P := P)) m stamp k s f url r : handle_reply z c s f url r = None ->
  exists n, frun z c (mkfm s []) (FReply f url r :: repeat (FStep 0 m stamp k) n) = None.
Proof. exact (@reply_panics P z c m stamp s f url r k). Qed.
Print Assumptions C145_panics.

(** ... the queries ... *)
Theorem C145_query {P : prims} z (c : mconf (P := P)) m stamp k s f :
  exists n, frun z c (mkfm s []) (FQuery f :: repeat (FStep 0 m stamp k) n) =
    Some (mkfm s [], map fo (query s m f (match f with Rev => mc_cas c | _ => mc_loggers c end))).
Proof. exact (@query_alone P z c m stamp s f k). Qed.
Print Assumptions C145_query.

(** ... and the timers. *)
Theorem C145_fire {P : prims} z (c : mconf (P := P)) m stamp k s n t : m_timers s !! n = Some t ->
  exists j, frun z c (mkfm s []) (FFire n :: repeat (FStep 0 m stamp k) j) =
    Some (mkfm (fst (fire c (set_timers s (delete n (m_timers s))) m stamp t)) [], map fo (snd (fire c (set_timers s (delete n (m_timers s))) m stamp t))).
Proof. exact (@fire_alone P z c m stamp s n t k). Qed.
Print Assumptions C145_fire.

(** The task, in whatever order it meets the entries of the maps: it first drops what convicted entities said and what is of another period; what it
    publishes, in the directory of the minute, is what is then stored, in some order ... *)
Theorem C145_task {P : prims} z (c : mconf (P := P)) m stamp s ks s2 o :
  frun z c (mkfm s []) (FTask :: map (λ k, FStep 0 m stamp k) ks) = Some (mkfm s2 [], o) ->
  s2 = wipe m (clean s) /\ exists u, ueq u (generate_update c s2 m) /\ o = [FUpdate ("Period_" ++ itoa (Z.of_nat m - mc_offset c)) u].
Proof. exact (@task_alone P z c m stamp s ks s2 o). Qed.
Print Assumptions C145_task.

(** ... and it can always end. *)
Theorem C145_task_ends {P : prims} z (c : mconf (P := P)) m stamp s :
  exists ks s2 o, frun z c (mkfm s []) (FTask :: map (λ k, FStep 0 m stamp k) ks) = Some (mkfm s2 [], o).
Proof. exact (@task_ends P z c m stamp s). Qed.
Print Assumptions C145_task_ends.

(** Every sequential history of handlers, queries and timers is a history of the interleaved monitor ... *)
Theorem C145_history {P : prims} z (c : mconf (P := P)) l s s' o : Forall handler l -> mrun z c s l = Some (s', o) ->
  exists l', frun z c (mkfm s []) l' = Some (mkfm s' [], map fo o).
Proof. exact (@history_alone P z c l s s' o). Qed.
Print Assumptions C145_history.

(** ... also one in which the process dies. *)
Theorem C145_death {P : prims} z (c : mconf (P := P)) l s : Forall handler l -> mrun z c s l = None -> exists l', frun z c (mkfm s []) l' = None.
Proof. exact (@death_alone P z c l s). Qed.
Print Assumptions C145_death.

(** A monitor that runs its task with a conviction and a tree head in store, and publishes the tree head. *)
Example C145_ex : frun toy_z toy_mc fm_init day = Some (fst_of day, out_of day) /\ published (out_of day) = [("Period_7", [other_sth])].
Proof. exact (conj day_lives (proj1 (proj2 day_shows))). Qed.
