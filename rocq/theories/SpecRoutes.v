(** Vocabulary: a message reaches the handler it is meant for. *)
From Verif Require Import Bytes Types Gossiper Network Overlap System Routes.
From Verif Require Logger CA Monitor Client.
Open Scope string_scope.

(** The handler a message is meant for. *)
Definition meant_for (y : mail) : option handler :=
  match y with
  | Precert _ _ => Some HPrecert | Head _ _ => Some HSth | Proof_ _ _ => Some HPoi
  | Query _ Sth _ => Some HGetSth | Query _ Rev _ => Some HGetRev | Query _ Acc _ => None
  | Response _ _ _ _ => None                        (* an answer to a request *)
  | ToGossip _ _ => Some HObject | ToMon _ _ => Some HReport
  end.
Definition reaches_handler (y : mail) : Prop :=
  match y with
  | Response _ _ _ _ => True
  | _ => exists t m path h, request_of y = Some (t, m, path) /\ meant_for y = Some h /\ ask_server t m path = Serve h
  end.

(** The same for the posts between gossipers: objects, announcements and requests for announced objects. *)
Definition object_post (p : post) : Prop := exists g, po_msg p = MObj g /\ ask_server gossiper_routes POST (po_path p) = Serve HObject /\
  po_path p = match kind_of (g_type g) with
              | KObj (OInit Sth) => "/gossip/sth_init" | KObj (OInit Rev) => "/gossip/rev_init" | KObj (OInit Acc) => "/gossip/acc_init"
              | KObj OCon => "/gossip/con_init"
              | KFrag Sth => "/gossip/sth_frag" | KFrag Rev => "/gossip/rev_frag" | KFrag Acc => "/gossip/acc_frag"
              | KObj (OFull _) | KUnknown => "nowhere"
              end.
Definition note_post (p : post) : Prop := exists n, po_msg p = MNote n /\
  (ask_server gossiper_routes POST (po_path p) = Serve HNotification \/ ask_server gossiper_routes POST (po_path p) = Serve HRequest).

(** Nobody outside sends anything. *)
Definition no_outsiders (l : list wevent) : Prop := (forall y, EInject y ∉ l) /\ (forall p, EPost p ∉ l).
