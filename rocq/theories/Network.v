(** Several gossipers connected by HTTP posts.

    Simplifications: a handler or timer runs to completion before the next event at
    the same gossiper (Gossiper.v also has the interleaved semantics of
    one gossiper); a post is delivered at most once and is lost only if nobody
    listens at its address; the replies carry nothing. *)
From Verif Require Import Bytes Hex Json Types Crypto Verify Prog Gossiper.
Open Scope string_scope.

(** A post on its way (gossiper/gossiper_server.go:503-529): destination,
    path and body. *)
Record post : Type := mkpost { po_to : string; po_path : string; po_msg : gmsg }.

(** The posts to gossipers in a part of a trace.  What is posted to monitors does not
    come back. *)
Definition posts (tr : list gevt) : list post :=
  omap (λ e, match e with ToGossiper u ep m => Some (mkpost u ep m) | _ => None end) tr.

(** gossiper/gossiper_server.go:30-36: the paths served by
    Gossip_object_handler. *)
Definition object_paths : list string :=
  ["/gossip/sth_init"; "/gossip/rev_init"; "/gossip/acc_init"; "/gossip/con_init";
   "/gossip/sth_frag"; "/gossip/rev_frag"; "/gossip/acc_frag"].

(** gossiper/gossiper_server.go:26-46, handleRequests, and the decoding at
    the start of the handlers (52-57, 100-105, 151-157): what arrives at a
    gossiper; None if the path is unknown or the body does not decode. *)
Definition arrival (p : post) : option gevent :=
  let body := match po_msg p with MObj g => gobj_marshal g | MNote n => note_marshal n end in
  if bool_decide (po_path p ∈ object_paths) then Recv (Z.of_nat (len body)) <$> gobj_decode body
  else if String.eqb (po_path p) "/gossip/new_payload_request" then Request <$> note_decode body
  else if String.eqb (po_path p) "/gossip/new_payload_notification" then Notify <$> note_decode body
  else None.

(** All gossipers by URL, and the posts on their way. *)
Record net : Type := mknet { nt_nodes : gmap string gsys; nt_flight : list post }.

Inductive nevent :=
| NHand (u : string) (g : gobj)                       (* a monitor or logger posts an object to gossiper u *)
| NDeliver (i : nat)                                   (* the i-th post on its way arrives *)
| NFire (u : string) (i : nat)                         (* the i-th pending timer of gossiper u fires *)
| NTick (u : string) (period second stamp : string).   (* the clock of gossiper u changes *)

Section net.
Context {P : prims} (cfgs : gmap string (gconf P)).

(** One event at one gossiper; its new posts are sent. *)
Definition act (N : net) (u : string) (e : gevent) : net :=
  match cfgs !! u, nt_nodes N !! u with
  | Some c, Some y =>
      let y' := step c y e in
      mknet (<[u := y']> (nt_nodes N)) (nt_flight N ++ posts (drop (length (t_trace (s_st y))) (t_trace (s_st y'))))%list
  | _, _ => N
  end.

Definition net_step (N : net) (e : nevent) : net :=
  match e with
  | NHand u g => act N u (Recv (Z.of_nat (len (gobj_marshal g))) g)
  | NDeliver i =>
      match nt_flight N !! i with
      | Some p =>
          let N' := mknet (nt_nodes N) (delete i (nt_flight N)) in
          match arrival p with Some e => act N' (po_to p) e | None => N' end
      | None => N
      end
  | NFire u i => act N u (Fire i)
  | NTick u p sec st => act N u (Tick p sec st)
  end.

Definition net_run (N : net) (l : list nevent) : net := fold_left net_step l N.

(** All gossipers just started (gossiper/Init.go:12-49), with their clocks
    in the same period. *)
Definition net_init (period second stamp : string) : net :=
  mknet ((λ _ : gconf P, init_gsys period second stamp) <$> cfgs) [].

End net.
