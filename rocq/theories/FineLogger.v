(** Logger/server.go with its period tasks in pieces: several tasks, submissions and requests interleave. *)
From Verif Require Import Bytes Hex Json Types Crypto Merkle Cert CertPool CTngExt Clock Logger.
Open Scope string_scope.

Section fine.
Context {P : prims}.
Notation h := (h_sha256 P).

(** Logger/server.go:207-252, f1, by what it does next.  What it holds in variables is carried along. *)
Inductive lgoro :=
| LClock                                                                  (** 212-222: reads the clock *)
| LTree (p : nat)                                                         (** 224-227: reads the pool, builds the tree *)
| LTwin (p : nat) (g : gobj) (root : string) (pois : list poi)            (** 229-232: reads the pool again, builds the other tree *)
| LKeep (p : nat) (g fk : gobj) (root : string) (pois : list poi)         (** 235: stores the head *)
| LKeepFake (p : nat) (g fk : gobj) (root : string) (pois : list poi)     (** 236: stores the other head *)
| LHeads (cas : list string) (g : gobj) (root : string) (pois : list poi) (** 239-241: posts the head to the next CA *)
| LProofs (root : string) (pois : list poi)                               (** 161-180: looks for the next certificate, posts its proof *)
| LCount                                                                  (** 244-249: the counters, under their lock *)
| LClear.                                                                 (** 251: a new pool *)

(** A logger with its running tasks. *)
Record flog : Type := mkfl { fl_st : lst; fl_go : list lgoro }.

(** Logger/Types.go:93-133, InitializeLoggerContext, as [logger_init]. *)
Definition fl_init (ty k : Z) : flog := mkfl (logger_init ty k) [].

(** Logger/server.go:235 and 236. *)
Definition keep_sth (s : lst) (p : nat) (g : gobj) : lst :=
  mklst (l_pool s) (l_type s) (l_interval s) (l_count s) (l_online s) (<[pad2 p := g]> (l_sth s)) (l_fake s).
Definition keep_fake (s : lst) (p : nat) (g : gobj) : lst :=
  mklst (l_pool s) (l_type s) (l_interval s) (l_count s) (l_online s) (l_sth s) (<[pad2 p := g]> (l_fake s)).
(** Logger/server.go:244-249. *)
Definition end_count (s : lst) : lst :=
  mklst (l_pool s) (l_type s) (l_interval s) 0 (if Z.ltb 0 (l_count s) then l_online s + 1 else l_online s) (l_sth s) (l_fake s).

(** Logger/server.go:207-252, one step of f1 at time [t], with [up] the CAs that can be reached now.  [None]: the process dies (a nil tree:
    buildmerkle.go:20; certlist2[0] of an empty list; a nil certificate: line 168; a nil response: line 158).  A post to a CA is one step, whatever becomes of it; so are
    the lookup of a certificate and the post of its proof (between them only local values are used). *)
Definition lgstep (c : lconf P) (s : lst) (a : lgoro) (t : now) (up : string -> bool) : option (lst * option lgoro * list lout) :=
  match a with
  | LClock => Some (s, Some (LTree (S (n_minute t))), [])
  | LTree p =>
      match build_tree c (get_certs (l_pool s)) t p with
      | None => None
      | Some (g, root, pois) => Some (s, Some (LTwin p g root pois), [])
      end
  | LTwin p g root pois =>
      match get_certs (l_pool s) with
      | [] => None
      | first :: _ =>
          match build_tree c (get_certs (l_pool s) ++ [first])%list t p with
          | None => None
          | Some (fk, _, _) => Some (s, Some (LKeep p g fk root pois), [])
          end
      end
  | LKeep p g fk root pois => Some (keep_sth s p g, Some (LKeepFake p g fk root pois), [])
  | LKeepFake p g fk root pois => Some (keep_fake s p fk, Some (LHeads (lc_cas c) g root pois), [])
  | LHeads [] g root pois => Some (s, Some (LProofs root pois), [])
  | LHeads (ca :: r) g root pois => Some (s, Some (LHeads r g root pois), [LMsg (SthTo ca g)])
  | LProofs root [] => Some (s, Some LCount, [])
  | LProofs root (p :: r) =>
      if is_empty (poi_ski p) then Some (s, Some (LProofs root r), [])
      else
        match get_by_ski (l_pool s) (poi_ski p) with
        | None => None
        | Some crt =>
            if verify_proof h (c_subject crt) (poi_proof p) root then
              if up (poi_issuer p) then Some (s, Some (LProofs root r), [LMsg (PoiTo (poi_issuer p) p)]) else None
            else Some (s, Some LCount, [])
        end
  | LCount => Some (end_count s, Some LClear, [])
  | LClear => Some (set_l_pool s new_pool, None, [])
  end.

(** What happens: a precertificate arrives (Logger/server.go:112-129; the pool is changed under its lock, in one step), a monitor asks in minute [m]
    (46-109; everything after the clock is under one lock, and reads the storage once), a task starts (253), or the [n]th running task makes a step. *)
Inductive lfev := FSubmit (x : cert) | FAsk (m : nat) | FTick | FRun (n : nat) (t : now) (up : string -> bool).

Definition lfstep (c : lconf P) (y : flog) (e : lfev) : option (flog * list lout) :=
  match e with
  | FSubmit x => Some (mkfl (receive_precert (fl_st y) x) (fl_go y), [])
  | FAsk m => let '(s, r) := request_sth (fl_st y) m in Some (mkfl s (fl_go y), [LReply r])
  | FTick => Some (mkfl (fl_st y) (fl_go y ++ [LClock])%list, [])
  | FRun n t up =>
      match fl_go y !! n with
      | None => Some (y, [])
      | Some a =>
          match lgstep c (fl_st y) a t up with
          | None => None
          | Some (s, Some a', o) => Some (mkfl s (<[n := a']> (fl_go y)), o)
          | Some (s, None, o) => Some (mkfl s (delete n (fl_go y)), o)
          end
      end
  end.

(** A whole history; [None]: the process has died. *)
Fixpoint lfrun (c : lconf P) (y : flog) (l : list lfev) : option (flog * list lout) :=
  match l with
  | [] => Some (y, [])
  | e :: r =>
      match lfstep c y e with
      | None => None
      | Some (y1, o1) => match lfrun c y1 r with None => None | Some (y2, o2) => Some (y2, (o1 ++ o2)%list) end
      end
  end.
End fine.
