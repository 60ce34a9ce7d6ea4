(** Networks of gossipers, and the whole system, with gossipers at the level of single accesses (FineGossiper.v).

    Everything else is as in Overlap.v and System.v.  The task at the end of a period is left out: with it a
    gossiper does not act as if critical sections were single steps (C132). *)
From Verif Require Import Bytes Types Crypto Verify Bitset Cert CertPool CTngExt Revocation Prog Gossiper Network Overlap System Locks LockUse Fine FineGossiper.
From Verif Require Logger CA Monitor Client.
Open Scope string_scope.

Notation fgpool := (fpool gst gtask).

(** All gossipers by URL, and the posts on their way; as [onet]. *)
Record fnet : Type := mkfnet { fn_nodes : gmap string fgpool; fn_flight : list post }.

Section fnet.
Context {P : prims} (cfgs : gmap string (gconf P)).

(** gossiper/gossiper_server.go:26-46: the handler started by a request, as [request_prog]. *)
Definition m_request_prog (c : gconf P) (e : gevent) : gmprog unit :=
  match e with
  | Recv n g => m_object_handler c n g
  | Notify n => m_notification_handler c n
  | Request n => m_request_handler n
  | _ => mskip
  end.
Definition fadd (q : gmprog unit) (y : fgpool) : fgpool :=
  mkfpool (f_st y) (f_locks y) (f_threads y ++ [q])%list (f_tasks y) (f_crashes y) (f_dead y).

(** A change at one gossiper; its new posts are sent. *)
Definition fput (N : fnet) (u : string) (y y' : fgpool) : fnet :=
  mkfnet (<[u := y']> (fn_nodes N)) (fn_flight N ++ posts (drop (length (t_trace (f_st y))) (t_trace (f_st y'))))%list.
Definition fact (N : fnet) (u : string) (f : gconf P -> fgpool -> fgpool) : fnet :=
  match cfgs !! u, fn_nodes N !! u with
  | Some c, Some y => fput N u y (f c y)
  | _, _ => N
  end.

(** A step of a goroutine of a gossiper, or a timer that fires. *)
Definition internal (c : gconf P) : fgpool -> fgpool -> Prop := fstep (m_start_task c) (λ _, False) (λ _ _, False).

(** What happens; the label is [None] for the steps of goroutines and timers. *)
Inductive fnet_step : fnet -> option oevent -> fnet -> Prop :=
| fnet_run N u c y y' : cfgs !! u = Some c -> fn_nodes N !! u = Some y -> internal c y y' -> fnet_step N None (fput N u y y')
| fnet_hand N u g :
    fnet_step N (Some (OHand u g)) (fact N u (λ c, fadd (m_request_prog c (Recv (Z.of_nat (len (gobj_marshal g))) g))))
| fnet_deliver N i q : fn_flight N !! i = Some q ->
    fnet_step N (Some (ODeliver i))
      (let N' := mkfnet (fn_nodes N) (delete i (fn_flight N)) in
       match arrival q with Some e => fact N' (po_to q) (λ c, fadd (m_request_prog c e)) | None => N' end)
| fnet_tick N u p sec st :
    fnet_step N (Some (OTick u p sec st))
      (fact N u (λ _ y, mkfpool (set_clock (f_st y) p sec st) (f_locks y) (f_threads y) (f_tasks y) (f_crashes y) (f_dead y))).

(** A history with the list of its labels. *)
Inductive fnet_run_to (N0 : fnet) : list oevent -> fnet -> Prop :=
| fnet_here : fnet_run_to N0 [] N0
| fnet_more l N o N' : fnet_run_to N0 l N -> fnet_step N o N' -> fnet_run_to N0 (l ++ option_list o)%list N'.

(** gossiper/Init.go:12-49, as [onet_init]. *)
Definition fnet_init (period second stamp : string) : fnet := mkfnet ((λ _ : gconf P, fine_init period second stamp) <$> cfgs) [].
End fnet.

(** The whole system: a network as above, and the rest as in System.v (the gossipers' network in [fw_rest] is not used). *)
Record fworld : Type := mkfw { fw_net : fnet; fw_rest : world }.

Section fworld.
Context {P : prims} (z : gzip) (x : CA.x509lib) (S : sysconf P).

(** Events that do not concern the gossipers. *)
Definition elsewhere (W : world) (e : wevent) : Prop :=
  match e with
  | EGossip _ | EPost _ | EPeriod _ => False
  | EDeliver i _ => match w_mail W !! i with Some (ToGossip _ _) => False | _ => True end
  | _ => True
  end.

Inductive fw_step : fworld -> option wevent -> fworld -> Prop :=
| fw_run N W u c y y' : sy_gossipers S !! u = Some c -> fn_nodes N !! u = Some y -> internal c y y' ->
    fw_step (mkfw N W) None (mkfw (fput N u y y') (send W (reports (drop (length (t_trace (f_st y))) (t_trace (f_st y'))))))
| fw_gossip N W e N' : inner_event e = true -> fnet_step (sy_gossipers S) N (Some e) N' -> fw_step (mkfw N W) (Some (EGossip e)) (mkfw N' W)
| fw_hand N W i m u g N' : w_mail W !! i = Some (ToGossip u g) -> fnet_step (sy_gossipers S) N (Some (OHand u g)) N' ->
    fw_step (mkfw N W) (Some (EDeliver i m)) (mkfw N' (set_mail W (delete i (w_mail W))))
| fw_post N W p : fw_step (mkfw N W) (Some (EPost p)) (mkfw (mkfnet (fn_nodes N) (fn_flight N ++ [p])%list) W)
| fw_other N W e : elsewhere W e -> fw_step (mkfw N W) (Some e) (mkfw N (wstep z x S W e)).

(** A history: every event from outside the gossipers, with the rest of the system as it was just before. *)
Inductive fw_run_to (W0 : fworld) : list (wevent * world) -> fworld -> Prop :=
| fw_here : fw_run_to W0 [] W0
| fw_more h W o W' : fw_run_to W0 h W -> fw_step W o W' -> fw_run_to W0 (h ++ match o with Some e => [(e, fw_rest W)] | None => [] end)%list W'.

(** As [world_init]. *)
Definition fw_init (period second stamp : string) (lt : string -> Z * Z) (ct : string -> Z * Z * CA.draw * CA.draw) : fworld :=
  mkfw (fnet_init (sy_gossipers S) period second stamp) (world_init x S period second stamp lt ct).
End fworld.
