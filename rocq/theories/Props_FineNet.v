(** C134: networks and systems whose gossipers run at the level of single accesses. *)
From Verif Require Import Bytes Types Crypto Verify Bitset Cert CertPool CTngExt Revocation Prog Gossiper Network Overlap System SpecVerify SpecGossiper SpecNetwork SpecOverlap SpecSystem Toy RefuteGossiper RefuteNetwork RefuteSystem Fine FineGossiper FineNet SpecFineNet FineNetFacts RefuteFineNet RefuteLogger RefuteCA.
From Verif Require Logger CA Monitor Client.
Open Scope string_scope.

(** However goroutines are switched, the network looks at every moment like one in which critical sections are single steps, after the same requests, arrivals and clock
    changes. *)
Theorem C134_network_as_if_atomic : forall (P : prims) (cfgs : gmap string (gconf P)) p sec st l F, fnet_run_to cfgs (fnet_init cfgs p sec st) l F ->
  exists l', outside l' = l /\ looks_like F (onet_run cfgs (onet_init cfgs p sec st) l').
Proof. exact @network_as_if_atomic. Qed.
Print Assumptions C134_network_as_if_atomic.

(** So does the system with loggers, CAs, monitors and clients, and each event outside the gossipers finds the rest of the system as it was. *)
Theorem C134_system_as_if_atomic : forall (P : prims) z x (S : sysconf P) p sec st lt ct h F, let W0 := world_init x S p sec st lt ct in
  fw_run_to z x S (fw_init x S p sec st lt ct) h F -> exists l, same_history z x S W0 h l /\ system_looks_like F (wrun z x S W0 l).
Proof. exact @system_as_if_atomic. Qed.
Print Assumptions C134_system_as_if_atomic.

(** What C54, C84 and C93 say of the system with atomic critical sections therefore holds of this one.  In an honest network at rest every gossiper has stored what was
    handed over and told its monitor ... *)
Theorem C134_stored : forall (P : prims) (cfgs : gmap string (gconf P)) T p (Gs : list gobj),
  honest_network cfgs T -> valid_statements cfgs p Gs -> agg_correct P -> fast_perm P -> (forall sg : bls_sig P, bls_deser (bls_ser sg) = Some sg) ->
  forall sec st l F, fnet_run_to cfgs (fnet_init cfgs p sec st) l F -> Forall (oallowed p Gs) l -> fquiescent F ->
  forall u g, OHand u g ∈ l -> is_Some (cfgs !! u) -> forall v c, cfgs !! v = Some c -> exists y, fn_nodes F !! v = Some y /\
    statement_table (f_st y) g !! get_id g = Some g /\ ToMonitor (gc_owner c) g ∈ t_trace (f_st y).
Proof. exact @fine_stored. Qed.
Print Assumptions C134_stored.

(** ... and an aggregate that verifies, if no fragment was stored twice; ... *)
Theorem C134_aggregates : forall (P : prims) (cfgs : gmap string (gconf P)) T p (Gs : list gobj),
  honest_network cfgs T -> valid_statements cfgs p Gs -> agg_correct P -> fast_perm P -> (forall sg : bls_sig P, bls_deser (bls_ser sg) = Some sg) ->
  forall sec st l F, fnet_run_to cfgs (fnet_init cfgs p sec st) l F -> Forall (oallowed p Gs) l -> fquiescent F ->
  forall u g, OHand u g ∈ l -> is_Some (cfgs !! u) ->
  (forall w y, fn_nodes F !! w = Some y -> NoDup (fragments_held p (f_st y) g)) ->
  forall v c, cfgs !! v = Some c -> exists y full, fn_nodes F !! v = Some y /\
    full_table (f_st y) g !! mkgid p (full_name g) (g_p0 g) = Some full /\ verify (gc_crypto c) full = Accept /\
    g_p1 full = g_p1 g /\ g_p2 full = g_p2 g /\ ToMonitor (gc_owner c) full ∈ t_trace (f_st y).
Proof. exact @fine_all_full. Qed.
Print Assumptions C134_aggregates.

(** ... nobody is blacklisted, nothing panics, no process dies, at any moment; ... *)
Theorem C134_unharmed : forall (P : prims) (cfgs : gmap string (gconf P)) T p (Gs : list gobj),
  honest_network cfgs T -> valid_statements cfgs p Gs -> agg_correct P -> fast_perm P -> (forall sg : bls_sig P, bls_deser (bls_ser sg) = Some sg) ->
  forall sec st l F, fnet_run_to cfgs (fnet_init cfgs p sec st) l F -> Forall (oallowed p Gs) l ->
  forall v y, fn_nodes F !! v = Some y -> f_crashes y = [] /\ f_dead y = false /\ t_black (f_st y) = ∅.
Proof. exact @fine_unharmed. Qed.
Print Assumptions C134_unharmed.

(** ... and no more posts arrive than C84 says. *)
Theorem C134_traffic : forall (P : prims) (cfgs : gmap string (gconf P)) T p (Gs : list gobj),
  honest_network cfgs T -> valid_statements cfgs p Gs -> agg_correct P -> fast_perm P -> (forall sg : bls_sig P, bls_deser (bls_ser sg) = Some sg) ->
  (forall u c, cfgs !! u = Some c -> NoDup (gc_neighbours c)) ->
  forall sec st l F, fnet_run_to cfgs (fnet_init cfgs p sec st) l F -> Forall (oallowed p Gs) l ->
  deliveries l <= length Gs * statement_traffic (size cfgs) T.
Proof. exact @fine_traffic. Qed.
Print Assumptions C134_traffic.

(** In the whole system, a normal logger that is asked in time is never convicted. *)
Theorem C134_normal_logger : forall (P : prims) z x (S : sysconf P) p sec st lt ct e c h F,
  logger_identity S e c -> (lt e).1 = 0%Z -> fw_run_to z x S (fw_init x S p sec st lt ct) h F ->
  outsiders_silent e h.*1 -> NoDup (publications e h.*1) -> fw_timely Datatypes.S e h -> fw_unconvicted e F.
Proof. exact @fine_logger_safe. Qed.
Print Assumptions C134_normal_logger.

Example C134_ex_network : fnet_run_to plain3 (fnet_init plain3 "07" "s" "t") f_end.1 f_end.2 /\ Forall (oallowed "07" [sth_a; rev_a]) f_end.1 /\ fquiescent f_end.2 /\
  OHand "g1" sth_a ∈ f_end.1 /\ (forall w y, fn_nodes f_end.2 !! w = Some y -> NoDup (fragments_held "07" (f_st y) sth_a)) /\ deliveries f_end.1 = 18.
Proof. exact f_end_facts. Qed.
Example C134_ex_honest : honest_network plain3 2 /\ valid_statements plain3 "07" [sth_a; rev_a].
Proof. exact plain3_ok. Qed.
(** The goroutines of a gossiper take turns here; at the end the client has an aggregate of the logger's tree head. *)
Example C134_ex_system : logger_identity toy_sys lg (Logger.mklconf (P:=toy) lg [ca] "k1") /\
  fw_run_to toy_z toy_x toy_sys f_start f_story.1 f_story.2 /\ outsiders_silent lg f_story.1.*1 /\ NoDup (publications lg f_story.1.*1) /\ fw_timely Datatypes.S lg f_story.1 /\
  exists s, w_clients (fw_rest f_story.2) !! "c1" = Some s /\ is_Some (Client.cl_sth s !! "localhost:9100@12").
Proof. exact (conj toy_identity f_story_facts). Qed.
