(** C133: messages reach the handlers they are meant for. *)
From Verif Require Import Bytes Hex Json Types Crypto Verify Bitset Cert CertPool CTngExt Revocation Prog Gossiper Network Overlap System SpecVerify SpecGossiper Routes SpecRoutes RoutesFacts Toy RefuteLogger RefuteCA RefuteSystem.
From Verif Require Logger CA Monitor Client.
Open Scope string_scope.

(** C133: in every history of the whole system in which nobody outside sends anything, every message on its way is asked of a path under which its
    receiver serves the handler it is meant for. *)
Theorem C133_all_routed : forall (P : prims) z x (S : sysconf P) p sec st l lt ct, let W := wrun z x S (world_init x S p sec st lt ct) l in no_outsiders l ->
  (forall y, y ∈ w_mail W -> reaches_handler y) /\ (forall q, q ∈ on_flight (w_net W) -> object_post q \/ note_post q).
Proof. exact @all_routed. Qed.
Print Assumptions C133_all_routed.

(** The posts of one gossiper, whatever it receives and however its handlers interleave. *)
Theorem C133_gossiper : forall (P : prims) (cfg : gconf P) s u ep m, reachable cfg s -> ToGossiper u ep m ∈ t_trace s ->
  object_post (mkpost u ep m) \/ note_post (mkpost u ep m).
Proof. exact @gossiper_routed. Qed.
Print Assumptions C133_gossiper.

(** What a monitor sends, whatever it receives. *)
Theorem C133_monitor : forall (P : prims) z (c : @Monitor.mconf P) s e s' o mo mon u, Monitor.mstep z c s e = Some (s', o) -> mo ∈ o ->
  reaches_handler (mon_mail mon u mo).
Proof. exact @monitor_routed. Qed.
Print Assumptions C133_monitor.

(** What a gossiper does with a post is decided by its route table alone, for every path. *)
Theorem C133_arrival : forall q, arrival q =
  let body := match po_msg q with MObj g => gobj_marshal g | MNote n => note_marshal n end in
  match ask_server gossiper_routes POST (po_path q) with
  | Serve HObject => Recv (Z.of_nat (len body)) <$> gobj_decode body
  | Serve HRequest => Request <$> note_decode body
  | Serve HNotification => Notify <$> note_decode body
  | _ => None
  end.
Proof. exact arrival_routes. Qed.
Print Assumptions C133_arrival.

(** The path says nothing about the object: every path for objects takes objects of every type, aggregates too, which have no path of their own. *)
Theorem C133_any_object : forall u ep g, ask_server gossiper_routes POST ep = Serve HObject ->
  arrival (mkpost u ep (MObj g)) = Some (Recv (Z.of_nat (len (gobj_marshal g))) g).
Proof. exact any_object_anywhere. Qed.
Print Assumptions C133_any_object.
Theorem C133_no_aggregate_path : forall f, ask_server gossiper_routes POST (endpoint_of (KObj (OFull f))) = NotFound.
Proof. exact full_path_refused. Qed.
Print Assumptions C133_no_aggregate_path.

(** Each type of object has a path of its own, the same at monitors and at gossipers. *)
Theorem C133_own_path : (forall g f, obj_kind g = KObj (OInit f) -> send_path g = endpoint_of (KObj (OInit f))) /\
  forall k1 k2, endpoint_of k1 = endpoint_of k2 -> k1 = k2.
Proof. exact (conj same_path own_path). Qed.
Print Assumptions C133_own_path.

(** Every route is served; with a slash at the end of the path gets are, after a redirection, and posts are not. *)
Theorem C133_slash : forall t m path h, t ∈ [gossiper_routes; logger_routes; ca_routes; monitor_routes] -> (m, path, h) ∈ t ->
  ask_server t m path = Serve h /\ ask_server t m (path ++ "/") = match m with GET => Serve h | POST => NotAllowed end.
Proof. exact slash. Qed.
Print Assumptions C133_slash.

(** A run of the small system: precertificates, tree heads and proofs, queries, accusations, fragments and reports are on their way. *)
Example C133_ex : forallb no_outsider bad3 = true /\
  let on k := let W := wrun toy_z toy_x toy_sys (start "00") (take k bad3) in (omap meant_for (w_mail W), map po_path (on_flight (w_net W))) in
  on 1 = ([HPrecert; HPrecert], []) /\ on 4 = ([HSth; HPoi; HPoi], []) /\ on 9 = ([HGetSth; HGetSth], []) /\
  on 15 = ([HObject; HObject], []) /\ on 61 = ([HReport], ["/gossip/acc_frag"]).
Proof. split; [vm_compute; reflexivity|]. vm_compute. auto. Qed.
