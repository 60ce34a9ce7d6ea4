(** Logger/*.go. *)
From Verif Require Import Bytes Hex Json Types Crypto Merkle Cert CertPool CTngExt Clock.
Open Scope string_scope.

Section logger.
Context {P : prims}.
Notation h := (h_sha256 P).

(** Logger/Types.go:16-30: the parts of both configurations in use, and the
    private key of the context. *)
Record lconf : Type := mklconf { lc_signer : string; lc_cas : list string; lc_key : rsa_sec P }.

(** Logger/Types.go:32-56, LoggerContext: the mutable fields in use. *)
Record lst : Type := mklst {
  l_pool : pool;
  l_type : Z;
  l_interval : Z;
  l_count : Z;
  l_online : Z;
  l_sth : gmap string gobj;
  l_fake : gmap string gobj
}.

(** Logger/Types.go:93-133, InitializeLoggerContext; type and interval are set afterwards by the
    test programs. *)
Definition logger_init (ty k : Z) : lst := mklst new_pool ty k 0 0 ∅ ∅.

Definition set_l_pool (s : lst) (p : pool) : lst := mklst p (l_type s) (l_interval s) (l_count s) (l_online s) (l_sth s) (l_fake s).
Definition set_l_count (s : lst) (n : Z) : lst := mklst (l_pool s) (l_type s) (l_interval s) n (l_online s) (l_sth s) (l_fake s).

(** A reading of the clock: minute and timestamp. *)
Record now : Type := mknow { n_minute : nat; n_stamp : string }.

(** Logger/buildmerkle.go:28-50: the STH and the signed object around it. *)
Definition tree_head (c : lconf) (t : now) (root : string) (size : nat) : sth :=
  mksth (lc_signer c) (n_stamp t) (pad2 (n_minute t)) (hex_encode root) (Z.of_nat size).

Definition sth_object (c : lconf) (t : now) (root : string) (size : nat) (period : nat) : gobj :=
  let p0 := lc_signer c in
  let p1 := hex_encode (sth_marshal (tree_head c t root size)) in
  mkobj "CTng" (itoa (Z.of_nat period)) STH_INIT (lc_signer c) []
        (rsasig_string (mkrsasig (rsa_sign (lc_key c) (p0 ++ p1 ++ "")) (lc_signer c))) ""
        (n_stamp t) "RSA" p0 p1 "".

(** Logger/buildmerkle.go:14-51, BuildMerkleTreeFromCerts.  The leaves are the raw subjects
    (crypto/MerkleTree.go:14-20).  [None]: less than two certificates, the tree is a nil pointer and
    reading tree.Proofs panics. *)
Definition build_tree (c : lconf) (certs : list cert) (t : now) (period : nat) : option (gobj * string * list poi) :=
  match new_tree h (map c_subject certs) with
  | None => None
  | Some tr =>
      Some (sth_object c t (mt_root tr) (length certs) period, mt_root tr,
            map (λ '(p, crt), mkpoi (Some p) (c_ski crt) (c_issuer_cn crt) (lc_signer c)) (combine (mt_proofs tr) certs))
  end.

(** Answer of a handler: a JSON object, an empty body, or a panic inside the
    handler (integer division by zero). *)
Inductive reply := Answer (g : gobj) | Silent | HandlerPanic.

(** Go's m[k] on map[string]Gossip_object. *)
Definition obj_at (m : gmap string gobj) (k : string) : gobj := default zero_obj (m !! k).

(** Logger/server.go:46-109, requestSTH at minute [m].  Go's % is
    [Z.rem]; it panics for a zero interval, and it is evaluated first in every condition. *)
Definition request_sth (s : lst) (m : nat) : lst * reply :=
  let s := set_l_count s (l_count s + 1) in
  let real := Answer (obj_at (l_sth s) (pad2 m)) in
  let fake := Answer (obj_at (l_fake s) (pad2 m)) in
  let hit := Z.eqb (Z.rem (l_count s) (l_interval s)) 0 in
  let second := Z.eqb (l_online s) 1 in
  let on_hit (r : reply) := if Z.eqb (l_interval s) 0 then HandlerPanic else r in
  (s, match l_type s with
      | 0%Z => real
      | 1%Z => on_hit (if hit && second then fake else real)
      | 2%Z => Silent
      | 3%Z => on_hit (if hit || second then Silent else real)
      | 4%Z => on_hit (if hit && second then fake else real)
      | 5%Z => if second then Silent else real
      | 6%Z => on_hit (if hit && second then Silent else real)
      | _ => Silent
      end).

(** Logger/server.go:112-129, receive_pre_cert, for a body that parses as the
    certificate [c] (any other body ends the process through
    log.Fatalf). *)
Definition receive_precert (s : lst) (c : cert) : lst := set_l_pool s (add_cert (l_pool s) (tbs_certificate c)).

(** Messages a logger sends. *)
Inductive lmsg := SthTo (ca : string) (g : gobj) | PoiTo (ca : string) (p : poi).

(** Logger/server.go:161-180, Send_POIs_to_CAs, with [up ca] telling whether the
    CA can be reached: posting to an unreachable CA dereferences a nil
    response (lines 154-158).  The flag is false after a panic. *)
Fixpoint send_pois (up : string -> bool) (s : lst) (root : string) (l : list poi) : list lmsg * bool :=
  match l with
  | [] => ([], true)
  | p :: r =>
      if is_empty (poi_ski p) then send_pois up s root r
      else
        match get_by_ski (l_pool s) (poi_ski p) with
        | None => ([], false)
        | Some crt =>
            if verify_proof h (c_subject crt) (poi_proof p) root then
              if up (poi_issuer p) then
                let '(ms, ok) := send_pois up s root r in (PoiTo (poi_issuer p) p :: ms, ok)
              else ([PoiTo (poi_issuer p) p], false)
            else ([], true)
        end
  end.

(** Logger/server.go:207-243, first part of f1: build, store and send.  [t]: line 212; [t1], [t2]: the readings inside the two calls
    of BuildMerkleTreeFromCerts.  Result: new state, messages, and whether the process survives.  The key is
    the next minute padded, and "60" after minute 59. *)
Definition publish (c : lconf) (up : string -> bool) (s : lst) (t t1 t2 : now) : lst * list lmsg * bool :=
  let period := S (n_minute t) in
  let certs := get_certs (l_pool s) in
  match build_tree c certs t1 period with
  | None => (s, [], false)
  | Some (g, root, pois) =>
      match certs with
      | [] => (s, [], false)
      | first :: _ =>
          match build_tree c (certs ++ [first]) t2 period with
          | None => (s, [], false)
          | Some (fk, _, _) =>
              let s' := mklst (l_pool s) (l_type s) (l_interval s) (l_count s) (l_online s)
                              (<[pad2 period := g]> (l_sth s)) (<[pad2 period := fk]> (l_fake s)) in
              let '(ms, ok) := send_pois up s' root pois in
              (s', (map (λ ca, SthTo ca g) (lc_cas c) ++ ms)%list, ok)
          end
      end
  end.

(** Logger/server.go:244-251, rest of f1.  The pool is replaced without holding its
    lock, possibly after further precertificates arrived. *)
Definition end_period (s : lst) : lst :=
  mklst new_pool (l_type s) (l_interval s) 0 (if Z.ltb 0 (l_count s) then l_online s + 1 else l_online s) (l_sth s) (l_fake s).

(** What happens to a logger. *)
Inductive levent := Submit (c : cert) | Ask (m : nat) | Publish (t t1 t2 : now) | EndPeriod.
Inductive lout := LMsg (m : lmsg) | LReply (r : reply) | LDead.

(** The flag tells whether the process survives. *)
Definition logger_step (c : lconf) (up : string -> bool) (s : lst) (e : levent) : lst * list lout * bool :=
  match e with
  | Submit crt => (receive_precert s crt, [], true)
  | Ask m => let '(s, r) := request_sth s m in (s, [LReply r], true)
  | Publish t t1 t2 => let '(s, ms, ok) := publish c up s t t1 t2 in (s, map LMsg ms, ok)
  | EndPeriod => (end_period s, [], true)
  end.

(** Events in turn, until the process dies. *)
Fixpoint logger_run (c : lconf) (up : string -> bool) (s : lst) (l : list levent) : lst * list lout :=
  match l with
  | [] => (s, [])
  | e :: r =>
      let '(s1, o1, ok) := logger_step c up s e in
      if ok then let '(s2, o2) := logger_run c up s1 r in (s2, (o1 ++ o2)%list) else (s1, (o1 ++ [LDead])%list)
  end.
End logger.
Arguments lconf : clear implicits.
