(** Several gossipers connected by HTTP posts, with overlapping handlers:
    net/http serves every request in a goroutine of its own, and time.AfterFunc
    runs in another.

    Simplifications: as in Network.v, except that handlers and timers of
    one gossiper are interleaved step by step, as in Prog.v. *)
From Verif Require Import Bytes Hex Json Types Crypto Verify Prog Gossiper Network.
Open Scope string_scope.

(** The handler started by a request (gossiper/gossiper_server.go:26-46). *)
Definition request_prog {P : prims} (c : gconf P) (e : gevent) : gprog unit :=
  match e with
  | Recv n g => object_handler c n g
  | Notify n => notification_handler c n
  | Request n => request_handler n
  | _ => pskip
  end.

(** The i-th goroutine makes one step. *)
Definition thread_step {St Task : Type} (i : nat) (y : pool St Task) : pool St Task :=
  match p_threads y !! i with
  | Some (Ret _) => mkpool (p_st y) (delete i (p_threads y)) (p_tasks y) (p_crashes y)
  | Some (Crash w) => mkpool (p_st y) (delete i (p_threads y)) (p_tasks y) (w :: p_crashes y)
  | Some (Act f k) => let '(s', x) := f (p_st y) in mkpool s' (<[i := k x]> (p_threads y)) (p_tasks y) (p_crashes y)
  | Some (Fork t k) => mkpool (p_st y) (<[i := k]> (p_threads y)) (p_tasks y ++ [t])%list (p_crashes y)
  | None => y
  end.

(** The i-th pending timer fires: its function runs in a new goroutine. *)
Definition task_start {St Task : Type} (start : Task -> prog St Task unit) (i : nat) (y : pool St Task) : pool St Task :=
  match p_tasks y !! i with
  | Some t => mkpool (p_st y) (p_threads y ++ [start t])%list (delete i (p_tasks y)) (p_crashes y)
  | None => y
  end.

(** A request arrives: its handler runs in a new goroutine. *)
Definition thread_add {St Task : Type} (q : prog St Task unit) (y : pool St Task) : pool St Task :=
  mkpool (p_st y) (p_threads y ++ [q])%list (p_tasks y) (p_crashes y).

(** All gossipers by URL, and the posts on their way. *)
Record onet : Type := mkonet { on_nodes : gmap string gpool; on_flight : list post }.

Inductive oevent :=
| OHand (u : string) (g : gobj)                       (* a monitor or logger posts an object to gossiper u *)
| ODeliver (i : nat)                                   (* the i-th post on its way arrives *)
| ORun (u : string) (i : nat)                          (* the i-th goroutine of gossiper u makes a step *)
| OStart (u : string) (i : nat)                        (* the i-th pending timer of gossiper u fires *)
| OTick (u : string) (period second stamp : string).   (* the clock of gossiper u changes *)

Section net.
Context {P : prims} (cfgs : gmap string (gconf P)).

(** A change at one gossiper; its new posts are sent. *)
Definition oact (N : onet) (u : string) (f : gconf P -> gpool -> gpool) : onet :=
  match cfgs !! u, on_nodes N !! u with
  | Some c, Some y =>
      let y' := f c y in
      mkonet (<[u := y']> (on_nodes N)) (on_flight N ++ posts (drop (length (t_trace (p_st y))) (t_trace (p_st y'))))%list
  | _, _ => N
  end.

Definition onet_step (N : onet) (e : oevent) : onet :=
  match e with
  | OHand u g => oact N u (λ c, thread_add (request_prog c (Recv (Z.of_nat (len (gobj_marshal g))) g)))
  | ODeliver i =>
      match on_flight N !! i with
      | Some p =>
          let N' := mkonet (on_nodes N) (delete i (on_flight N)) in
          match arrival p with Some e => oact N' (po_to p) (λ c, thread_add (request_prog c e)) | None => N' end
      | None => N
      end
  | ORun u i => oact N u (λ _, thread_step i)
  | OStart u i => oact N u (λ c, task_start (start_task c) i)
  | OTick u p sec st => oact N u (λ _ y, mkpool (set_clock (p_st y) p sec st) (p_threads y) (p_tasks y) (p_crashes y))
  end.

Definition onet_run (N : onet) (l : list oevent) : onet := fold_left onet_step l N.

(** All gossipers just started (gossiper/Init.go:12-49), with their clocks
    in the same period. *)
Definition onet_init (period second stamp : string) : onet :=
  mkonet ((λ _ : gconf P, init_pool period second stamp) <$> cfgs) [].

End net.
