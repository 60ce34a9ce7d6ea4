(** The whole system: loggers, CAs, monitors, gossipers and clients connected by HTTP
    (Logger/server.go, CA/server.go, monitor/monitor.go, gossiper/gossiper_server.go,
    client/client.go).  The entities are those of the other files; here
    are the messages between them and the interleaving of everything.

    Simplifications: every handler of a logger, CA, monitor or client is one step (a gossiper's
    handlers are interleaved step by step, as in Overlap.v); a message arrives at most once; the
    JSON text of a message is not modelled again, except between gossipers (C29: encoding and decoding give the
    object back); a process that ends is not restarted. *)
From Verif Require Import Bytes Hex Json Types Crypto Verify Bitset Cert CertPool CTngExt Revocation Prog Gossiper Network Overlap.
From Verif Require Logger CA Monitor Client.
Open Scope string_scope.

(** What is on its way between two entities, apart from the posts between gossipers. *)
Inductive mail :=
| Precert (l : string) (crt : cert)                                   (** CA/server.go:285-298: to logger [l] *)
| Head (ca : string) (g : gobj)                                       (** Logger/server.go:131-144: to a CA *)
| Proof_ (ca : string) (p : poi)                                      (** Logger/server.go:146-159: to a CA *)
| Query (mon : string) (f : fam) (url : string)                       (** monitor/monitor.go:146 and 242 *)
| Response (mon : string) (f : fam) (url : string) (r : option gobj)  (** its result; [None]: error *)
| ToGossip (u : string) (g : gobj)                                    (** monitor/monitor.go:343-369: to gossiper [u] *)
| ToMon (mon : string) (g : gobj).                                    (** gossiper/gossiper_server.go:534-560 *)

(** What happens. *)
Inductive wevent :=
| EDeliver (i m : nat)                                                (** the [i]th message arrives; [m] is the receiver's minute *)
| ELose (i : nat)                                                     (** it is lost *)
| EInject (x : mail)                                                  (** somebody outside sends a message *)
| EPost (p : post)                                                    (** somebody outside posts to a gossiper *)
| EGossip (e : oevent)                                                (** an event of the gossipers' network *)
| EPeriod (u : string)                                                (** PeriodicTasks of gossiper [u] *)
| EPublish (l : string) (t t1 t2 : Logger.now)                        (** first part of f1 of logger [l] *)
| ELogPeriod (l : string)                                             (** rest of f1 *)
| EIssue (ca : string) (ds : list CA.draw)
| ERevoke (ca : string) (i : N)
| ECaPeriod (ca : string) (rs : list N) (m : nat)
| EMonitor (mon : string) (e : Monitor.mevent)                        (** a timer of the monitor, or one of its periodic tasks *)
| ELoad (cl mon dir : string) (flag : bool).                          (** a client handles the update in the file [dir] of a monitor *)

Section system.
Context {P : prims}.

(** All configurations, by URL; a CA's with its crypto configuration, a monitor's with the URL of its
    gossiper (monitor/types.go:64). *)
Record sysconf : Type := mksys {
  sy_gossipers : gmap string (gconf P);
  sy_loggers : gmap string (Logger.lconf P);
  sy_cas : gmap string (CA.caconf P * cconf P);
  sy_monitors : gmap string (@Monitor.mconf P * string);
  sy_clients : gmap string (cconf P)
}.

(** The state of everything.  A process that has ended is missing. *)
Record world : Type := mkworld {
  w_net : onet;
  w_loggers : gmap string Logger.lst;
  w_cas : gmap string CA.cast;
  w_mons : gmap string Monitor.mst;
  w_clients : gmap string Client.clst;
  w_mail : list mail
}.

Definition set_net (W : world) (N : onet) : world := mkworld N (w_loggers W) (w_cas W) (w_mons W) (w_clients W) (w_mail W).
Definition set_loggers (W : world) (x : gmap string Logger.lst) : world := mkworld (w_net W) x (w_cas W) (w_mons W) (w_clients W) (w_mail W).
Definition set_cas (W : world) (x : gmap string CA.cast) : world := mkworld (w_net W) (w_loggers W) x (w_mons W) (w_clients W) (w_mail W).
Definition set_mons (W : world) (x : gmap string Monitor.mst) : world := mkworld (w_net W) (w_loggers W) (w_cas W) x (w_clients W) (w_mail W).
Definition set_clients (W : world) (x : gmap string Client.clst) : world := mkworld (w_net W) (w_loggers W) (w_cas W) (w_mons W) x (w_mail W).
Definition set_mail (W : world) (x : list mail) : world := mkworld (w_net W) (w_loggers W) (w_cas W) (w_mons W) (w_clients W) x.
Definition send (W : world) (x : list mail) : world := set_mail W (w_mail W ++ x)%list.

Context (z : gzip) (x : CA.x509lib) (S : sysconf).

(** The posts to monitors in a part of a trace. *)
Definition reports (tr : list gevt) : list mail :=
  omap (λ e, match e with ToMonitor u g => Some (ToMon u g) | _ => None end) tr.

(** What the gossipers newly sent to monitors. *)
Definition new_reports (N N' : onet) : list mail :=
  concat (map (λ uy : string * gpool,
                 match on_nodes N !! uy.1 with
                 | Some y => reports (drop (length (t_trace (p_st y))) (t_trace (p_st uy.2)))
                 | None => []
                 end) (map_to_list (on_nodes N'))).

(** The gossipers' network changes. *)
Definition with_net (W : world) (N : onet) : world := send (set_net W N) (new_reports (w_net W) N).

(** What a monitor sends. *)
Definition mon_mail (mon gossiper : string) (o : Monitor.mout) : mail :=
  match o with
  | Monitor.MSend g => ToGossip gossiper g
  | Monitor.MAsk f url => Query mon f url
  end.

Definition mon_event (W : world) (mon : string) (e : Monitor.mevent) : world :=
  match sy_monitors S !! mon, w_mons W !! mon with
  | Some (c, u), Some s =>
      match Monitor.mstep z c s e with
      | Some (s', o) => send (set_mons W (<[mon := s']> (w_mons W))) (map (mon_mail mon u) o)
      | None => set_mons W (delete mon (w_mons W))
      end
  | _, _ => W
  end.

(** Answers to queries: an empty body, a panic inside the handler and a missing process are all errors to the monitor. *)
Definition answer (r : Logger.reply) : option gobj := match r with Logger.Answer g => Some g | _ => None end.

Definition ask (W : world) (mon : string) (f : fam) (url : string) (m : nat) : world :=
  match f with
  | Sth =>
      match w_loggers W !! url with
      | Some s => let '(s', r) := Logger.request_sth s m in
                  send (set_loggers W (<[url := s']> (w_loggers W))) [Response mon f url (answer r)]
      | None => send W [Response mon f url None]
      end
  | Rev =>
      match w_cas W !! url with
      | Some s => let '(s', r) := CA.request_rev s m in
                  send (set_cas W (<[url := s']> (w_cas W))) [Response mon f url (answer r)]
      | None => send W [Response mon f url None]
      end
  | Acc => W
  end.

Definition log_mail (o : Logger.lmsg) : mail :=
  match o with Logger.SthTo ca g => Head ca g | Logger.PoiTo ca p => Proof_ ca p end.
Definition ca_mail (o : CA.camsg) : mail := match o with CA.PrecertTo l crt => Precert l crt end.

(** A message arrives. *)
Definition receive (W : world) (y : mail) (m : nat) : world :=
  match y with
  | Precert l crt =>
      match w_loggers W !! l with
      | Some s => set_loggers W (<[l := Logger.receive_precert s crt]> (w_loggers W))
      | None => W
      end
  | Head ca g =>
      match sy_cas S !! ca, w_cas W !! ca with
      | Some (_, cc), Some s => set_cas W (<[ca := fst (CA.receive_sth cc s g)]> (w_cas W))
      | _, _ => W
      end
  | Proof_ ca p =>
      match w_cas W !! ca with
      | Some s => set_cas W (<[ca := CA.receive_poi s p]> (w_cas W))
      | None => W
      end
  | Query mon f url => ask W mon f url m
  | Response mon f url r => mon_event W mon (Monitor.MReply f url r)
  | ToGossip u g => with_net W (onet_step (sy_gossipers S) (w_net W) (OHand u g))
  | ToMon mon g => mon_event W mon (Monitor.MGossip g)
  end.

(** A message is lost: the monitor sees a failed query. *)
Definition lost (y : mail) : list mail :=
  match y with
  | Query mon f url | Response mon f url _ => [Response mon f url None]
  | _ => []
  end.

(** Events of a monitor that are not the arrival of a message. *)
Definition own_event (e : Monitor.mevent) : bool :=
  match e with Monitor.MGossip _ | Monitor.MReply _ _ _ => false | _ => true end.

(** Events of the gossipers' network that are not the arrival of a monitor's message. *)
Definition inner_event (e : oevent) : bool := match e with OHand _ _ => false | _ => true end.

Definition ca_event (W : world) (ca : string) (e : CA.caevent) : world :=
  match sy_cas S !! ca, w_cas W !! ca with
  | Some (c, cc), Some s => set_cas W (<[ca := CA.ca_step x z c cc s e]> (w_cas W))
  | _, _ => W
  end.

Definition wstep (W : world) (e : wevent) : world :=
  match e with
  | EDeliver i m =>
      match w_mail W !! i with
      | Some y => receive (set_mail W (delete i (w_mail W))) y m
      | None => W
      end
  | ELose i =>
      match w_mail W !! i with
      | Some y => set_mail W (delete i (w_mail W) ++ lost y)%list
      | None => W
      end
  | EInject y => send W [y]
  | EPost p => set_net W (mkonet (on_nodes (w_net W)) (on_flight (w_net W) ++ [p])%list)
  | EGossip e => if inner_event e then with_net W (onet_step (sy_gossipers S) (w_net W) e) else W
  | EPeriod u => with_net W (oact (sy_gossipers S) (w_net W) u (λ _, thread_add periodic))
  | EPublish l t t1 t2 =>
      match sy_loggers S !! l, w_loggers W !! l with
      | Some c, Some s =>
          let '(s', ms, ok) := Logger.publish c (λ ca, bool_decide (is_Some (w_cas W !! ca))) s t t1 t2 in
          send (set_loggers W (if ok then <[l := s']> (w_loggers W) else delete l (w_loggers W))) (map log_mail ms)
      | _, _ => W
      end
  | ELogPeriod l =>
      match w_loggers W !! l with
      | Some s => set_loggers W (<[l := Logger.end_period s]> (w_loggers W))
      | None => W
      end
  | EIssue ca ds =>
      match sy_cas S !! ca, w_cas W !! ca with
      | Some (c, _), Some s =>
          let '(s', _, ms) := CA.issue x c s ds in
          send (set_cas W (<[ca := s']> (w_cas W))) (map ca_mail ms)
      | _, _ => W
      end
  | ERevoke ca i => ca_event W ca (CA.CRevoke i)
  | ECaPeriod ca rs m => ca_event W ca (CA.CPeriod rs m)
  | EMonitor mon e => if own_event e then mon_event W mon e else W
  | ELoad cl mon dir flag =>
      match sy_clients S !! cl, w_clients W !! cl, w_mons W !! mon with
      | Some cc, Some s, Some ms =>
          match Monitor.m_files ms !! dir ≫= Monitor.update_unmarshal with
          | Some u =>
              let '(s', o) := Client.handle_update z cc s flag u in
              set_clients W (match o with Client.Died => delete cl (w_clients W) | _ => <[cl := s']> (w_clients W) end)
          | None => W
          end
      | _, _, _ => W
      end
  end.

Definition wrun (W : world) (l : list wevent) : world := fold_left wstep l W.

(** Everything just started; loggers and CAs with their types, intervals and (for the CAs) random
    draws. *)
Definition world_init (period second stamp : string) (lt : string -> Z * Z) (ct : string -> Z * Z * CA.draw * CA.draw) : world :=
  mkworld (onet_init (sy_gossipers S) period second stamp)
          (map_imap (λ l _, Some (Logger.logger_init (lt l).1 (lt l).2)) (sy_loggers S))
          (map_imap (λ ca c, let '(ty, k, d1, d2) := ct ca in Some (CA.ca_init x (fst c) ty k d1 d2)) (sy_cas S))
          ((λ _, Monitor.monitor_init) <$> sy_monitors S)
          ((λ _, Client.mkcl ∅ ∅ ∅ false false false) <$> sy_clients S)
          [].
End system.
Arguments sysconf : clear implicits.
