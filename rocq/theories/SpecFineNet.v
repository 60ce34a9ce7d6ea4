(** What it means that a network of gossipers at the level of single accesses looks like one with atomic critical sections. *)
From Verif Require Import Bytes Types Crypto Verify Bitset Cert CertPool CTngExt Revocation Prog Gossiper Network Overlap System Fine FineNet.
From Verif Require Logger CA Monitor Client.

(** The same posts on their way, and at every gossiper the same stored objects, clocks, messages sent, timers and panics, and the same
    number of handlers at work. *)
Definition looks_like (F : fnet) (N : onet) : Prop :=
  fn_flight F = on_flight N /\
  forall u, match fn_nodes F !! u, on_nodes N !! u with
            | Some y, Some a => f_st y = p_st a /\ f_tasks y = p_tasks a /\ f_crashes y = p_crashes a /\ f_dead y = false /\
                                length (f_threads y) = length (p_threads a)
            | None, None => True
            | _, _ => False
            end.

(** Steps of the goroutines and timers of gossipers; the rest of a history comes from outside them. *)
Definition own_step (e : oevent) : bool := match e with ORun _ _ | OStart _ _ => true | _ => false end.
Definition outside (l : list oevent) : list oevent := filter (λ e, own_step e = false) l.

(** How many posts arrive. *)
Definition delivers (e : oevent) : bool := match e with ODeliver _ => true | _ => false end.
Definition deliveries (l : list oevent) : nat := length (filter (λ e, delivers e = true) l).

(** Nothing is on its way, nothing is running, and no timer is pending. *)
Definition fquiescent (F : fnet) : Prop :=
  fn_flight F = [] /\ forall u y, fn_nodes F !! u = Some y -> f_threads y = [] /\ f_tasks y = [].

(** For the whole system: everything outside the gossipers is the same. *)
Definition same_rest (R W : world) : Prop :=
  w_loggers R = w_loggers W /\ w_cas R = w_cas W /\ w_mons R = w_mons W /\ w_clients R = w_clients W /\ w_mail R = w_mail W.
Definition system_looks_like (F : fworld) (W : world) : Prop := looks_like (fw_net F) (w_net W) /\ same_rest (fw_rest F) W.
Definition gossip_step (e : wevent) : bool := match e with EGossip e => own_step e | _ => false end.
Definition system_outside (l : list wevent) : list wevent := filter (λ e, gossip_step e = false) l.

(** [l] is the history [h] with steps of the gossipers in between: the events from outside are the same ones in the same order, and each happens in the same
    state of the rest of the system. *)
Definition same_history {P : prims} (z : gzip) (x : CA.x509lib) (S : sysconf P) (W0 : world) (h : list (wevent * world)) (l : list wevent) : Prop :=
  system_outside l = h.*1 /\
  forall l1 e l2, l = (l1 ++ e :: l2)%list -> gossip_step e = false ->
  exists h1 R h2, h = (h1 ++ (e, R) :: h2)%list /\ system_outside l1 = h1.*1 /\ same_rest R (wrun z x S W0 l1).

(** As [timely] and [unconvicted] (SpecSystem.v). *)
Definition fw_timely (next : nat -> nat) (e : string) (h : list (wevent * world)) : Prop :=
  (forall h1 i m R h2 mon f, h = (h1 ++ (EDeliver i m, R) :: h2)%list -> w_mail R !! i = Some (Query mon f e) ->
     is_Some (w_loggers R !! e) /\ exists t t1 t2, EPublish e t t1 t2 ∈ h1.*1 /\ m = next (Logger.n_minute t)) /\
  (forall h1 i R h2 y, h = (h1 ++ (ELose i, R) :: h2)%list -> w_mail R !! i = Some y ->
     match y with Query _ _ url | Response _ _ url _ => url <> e | _ => True end).
Definition fw_unconvicted (e : string) (F : fworld) : Prop :=
  (forall u y, fn_nodes (fw_net F) !! u = Some y -> e ∉ t_black (f_st y)) /\
  (forall mon s i g, w_mons (fw_rest F) !! mon = Some s ->
     Monitor.m_con s !! i = Some g \/ Monitor.m_acc s !! i = Some g \/ Monitor.m_con_d s !! i = Some g \/ Monitor.m_acc_d s !! i = Some g -> g_p0 g <> e) /\
  (forall cl s, w_clients (fw_rest F) !! cl = Some s -> Client.cl_pom s !! e = None) /\
  (forall u g, ToGossip u g ∈ w_mail (fw_rest F) -> g_type g = ACC_INIT -> g_p0 g <> e).
