(** Which handler an HTTP request reaches.

    The route tables of the four servers, the paths the senders use, and what github.com/gorilla/mux (v1.8.0, StrictSlash(true)) and the
    redirects of Go's http.Client do with them.  Simplifications: hosts and ports are not modelled (a request reaches the
    server it is addressed to), no path is in need of cleaning (no "//" or ".."), and at most one redirect is followed. *)
From Verif Require Import Bytes Types Gossiper Network System.
From Verif Require Logger CA Monitor.
Open Scope string_scope.

Inductive meth := GET | POST.
Global Instance meth_eq_dec : EqDecision meth.
Proof. solve_decision. Defined.

(** The handler functions named in the tables. *)
Inductive handler :=
| HObject          (** gossiper/gossiper_server.go:146, Gossip_object_handler *)
| HRequest         (** gossiper/gossiper_server.go:98, Gossip_request_handler *)
| HNotification    (** gossiper/gossiper_server.go:49, Gossip_notification_handler *)
| HPrecert         (** Logger/server.go, receive_pre_cert *)
| HGetSth          (** Logger/server.go, requestSTH *)
| HSth             (** CA/server.go, receive_sth *)
| HPoi             (** CA/server.go, receive_poi *)
| HGetRev          (** CA/server.go, requestREV *)
| HGetUpdate       (** monitor/client-update-monitor.go:43, requestupdate *)
| HReport.         (** monitor/monitor.go:43, handle_gossip_from_gossiper *)

Definition table := list (meth * string * handler).

(** gossiper/gossiper_server.go:27-47, handleRequests. *)
Definition gossiper_routes : table :=
  [(POST, "/gossip/sth_init", HObject); (POST, "/gossip/rev_init", HObject); (POST, "/gossip/acc_init", HObject);
   (POST, "/gossip/con_init", HObject); (POST, "/gossip/sth_frag", HObject); (POST, "/gossip/rev_frag", HObject);
   (POST, "/gossip/acc_frag", HObject); (POST, "/gossip/new_payload_request", HRequest);
   (POST, "/gossip/new_payload_notification", HNotification)].
(** Logger/server.go:31-44, handleLoggerRequests. *)
Definition logger_routes : table := [(POST, "/Logger/receive-precerts", HPrecert); (GET, "/ctng/v2/get-sth", HGetSth)].
(** CA/server.go:38-55, handleCARequests. *)
Definition ca_routes : table := [(POST, "/CA/receive-sth", HSth); (POST, "/CA/receive-poi", HPoi); (GET, "/ctng/v2/get-revocation", HGetRev)].
(** monitor/monitor-server.go:22-33, handleMonitorRequests. *)
Definition monitor_routes : table := [(GET, "/monitor/get-update", HGetUpdate); (POST, "/monitor/receive-gossip-from-gossiper", HReport)].

Inductive status := NotFound | NotAllowed | Redirect (path : string) | Serve (h : handler).

(** mux.Router.Match with StrictSlash: a route is also found under its path with a slash at the end, and then the answer is a redirection (301)
    to the path without it; if only the method differs, the answer is 405. *)
Definition fits (route path : string) : bool := String.eqb path route || String.eqb path (route ++ "/").
Definition serve (t : table) (m : meth) (path : string) : status :=
  match List.find (λ r : meth * string * handler, bool_decide (r.1.1 = m) && fits r.1.2 path) t with
  | Some (_, p, h) => if String.eqb path p then Serve h else Redirect p
  | None => if existsb (λ r : meth * string * handler, fits r.1.2 path) t then NotAllowed else NotFound
  end.

(** http.Client: after a 301 the request is repeated as a GET. *)
Definition ask_server (t : table) (m : meth) (path : string) : status :=
  match serve t m path with Redirect p => serve t GET p | r => r end.

(** monitor/monitor.go:349-358, Send_to_gossiper: the path for an object; "/" is what is asked for if the path is empty. *)
Definition send_path (g : gobj) : string :=
  if String.eqb (g_type g) ACC_INIT then "/gossip/acc_init"
  else if String.eqb (g_type g) STH_INIT then "/gossip/sth_init"
  else if String.eqb (g_type g) REV_INIT then "/gossip/rev_init" else "/".

(** What is asked of whom: CA/server.go:285, Logger/server.go:139 and 154, monitor/monitor.go:146 and 242 and 359,
    gossiper/gossiper_server.go:540-548. *)
Definition request_of (y : mail) : option (table * meth * string) :=
  match y with
  | Precert _ _ => Some (logger_routes, POST, "/Logger/receive-precerts")
  | Head _ _ => Some (ca_routes, POST, "/CA/receive-sth")
  | Proof_ _ _ => Some (ca_routes, POST, "/CA/receive-poi")
  | Query _ Sth _ => Some (logger_routes, GET, "/ctng/v2/get-sth/")
  | Query _ Rev _ => Some (ca_routes, GET, "/ctng/v2/get-revocation/")
  | Query _ Acc _ => None
  | Response _ _ _ _ => None
  | ToGossip _ g => Some (gossiper_routes, POST, send_path g)
  | ToMon _ _ => Some (monitor_routes, POST, "/monitor/receive-gossip-from-gossiper")
  end.
