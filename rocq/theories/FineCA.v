(** CA/server.go with its period tasks and handlers in pieces: tasks, tree heads, proofs and requests interleave. *)
From Verif Require Import Bytes Hex Base64 Json Types Crypto Verify Cert CertPool CTngExt Clock Bitset Revocation CA.
From Verif Require Logger.
Open Scope string_scope.

Section fine.
Context {P : prims}.

(** CA/server.go:337-440, PeriodicTask with its f1, by what it does next; 236-263, receive_poi; 134-210, requestREV.  What they hold in variables is
    carried along.  [ds]: what is drawn at random for the certificates of this task, one element per certificate (Cert_per_period). *)
Inductive cgoro :=
| AWipe (ds : list draw)                                                              (** 344: deletes the tree heads *)
| AOffset (ds : list draw)                                                            (** 354: reads the counter, for the names *)
| AMake (off i : Z) (cs : list cert) (ds : list draw)                                 (** ca.go:21: reads the counter, for the next certificate *)
| ABump (off i : Z) (cs : list cert) (crt : cert) (ds : list draw)                    (** ca.go:66: increments the counter *)
| AAdd (cs : list cert)                                                               (** 365-367: adds the next certificate to the pool *)
| ASend (ls : list string) (crt : cert) (cs : list cert)                              (** 281-291: posts it to the next logger *)
| AMass                                                                               (** 374-402, when the timer of 439 fires: mass revocation *)
| AClock                                                                              (** 406-418: reads the clock *)
| AReal (p : string)                                                                  (** 419: makes the revocation object *)
| AFake (p : string) (g : gobj)                                                       (** 421: makes the other one *)
| APre (p : string) (g fk : gobj)                                                     (** 423: copies the pointer *)
| AKeep (p : string) (g fk : gobj)                                                    (** 424: stores the object *)
| AKeepFake (p : string) (fk : gobj)                                                  (** 425: stores the other one *)
| ACount                                                                              (** 431-436: the counters, under their lock *)
| AClear                                                                              (** 437: a new pool *)
| PHead (q : poi)                                                                     (** 247: reads the tree head *)
| PCert (i : loginfo)                                                                 (** 255, 258: reads the certificate and its extension *)
| PWrite (k : string) (crt : cert)                                                    (** 258-260: puts the new extension in place *)
| QCount                                                                              (** 138-144: counts the request, under the lock *)
| QRead (n : Z).                                                                      (** 145-208: reads the clock and answers; [n] requests were counted before *)

(** A CA with its running goroutines. *)
Record fca : Type := mkfc { fc_st : cast; fc_go : list cgoro }.

(** What is seen of a CA: certificates it signs, what it posts, answers (with the minute in which they are given). *)
Inductive cout := CSigned (crt : cert) | CMsg (m : camsg) | CReply (m : nat) (r : reply).

(** CA/types.go:297-344, InitializeCAContext, as [ca_init]. *)
Definition fc_init (x : x509lib) (c : caconf P) (ty k : Z) (d1 d2 : draw) : fca := mkfc (ca_init x c ty k d1 d2) [].

(** CA/server.go:392-402. *)
Definition mass (s : cast) (l : list N) : cast :=
  mkcast (a_pool s) (a_root s) (a_counter s) (if a_fresh s then crv_mass_revoke (a_crv s) l else a_crv s) (a_type s) (a_interval s) (a_count s) (a_online s)
         (a_rev s) (a_fake s) (a_sths s) false.
(** CA/server.go:424 and 425. *)
Definition keep_rev (s : cast) (p : string) (g : gobj) : cast :=
  mkcast (a_pool s) (a_root s) (a_counter s) (a_crv s) (a_type s) (a_interval s) (a_count s) (a_online s) (<[p := g]> (a_rev s)) (a_fake s) (a_sths s) (a_fresh s).
Definition keep_other (s : cast) (p : string) (g : gobj) : cast :=
  mkcast (a_pool s) (a_root s) (a_counter s) (a_crv s) (a_type s) (a_interval s) (a_count s) (a_online s) (a_rev s) (<[p := g]> (a_fake s)) (a_sths s) (a_fresh s).
(** CA/server.go:431-436. *)
Definition end_count (s : cast) : cast :=
  mkcast (a_pool s) (a_root s) (a_counter s) (a_crv s) (a_type s) (a_interval s) 0 (if Z.ltb 0 (a_count s) then a_online s + 1 else a_online s)
         (a_rev s) (a_fake s) (a_sths s) (a_fresh s).

(** One step of a goroutine in minute [m]; [l]: the positions a mass revocation draws.  Simplified: deleting all tree heads is one step, so is a mass revocation; and so is an
    increment.  The extension is written inside the certificate that the pool points to; here the certificate is stored, which differs from that only in that the certificate in a pool that is
    no longer used is not changed. *)
Definition cgstep (x : x509lib) (z : gzip) (c : caconf P) (s : cast) (a : cgoro) (m : nat) (l : list N) : cast * option cgoro * list cout :=
  match a with
  | AWipe ds => (set_a_sths s ∅, Some (AOffset ds), [])
  | AOffset ds => (s, Some (AMake (a_counter s) 0 [] ds), [])
  | AMake off i cs [] => (s, Some (AAdd cs), [])
  | AMake off i cs (d :: ds) =>
      let tmpl := unsigned_precert (cac_signer c) ("Testing Dummy " ++ itoa (i + off)) (a_counter s) d in
      (s, Some (ABump off i cs (sign_certificate x (cac_key c) tmpl (a_root s) (d_pub d)) ds), [])
  | ABump off i cs crt ds => (set_a_counter s (a_counter s + 1), Some (AMake off (i + 1) (cs ++ [crt])%list ds), [CSigned crt])
  | AAdd [] => (s, Some AMass, [])
  | AAdd (crt :: cs) => (set_a_pool s (add_cert (a_pool s) (precert_of crt)), Some (ASend (cac_loggers c) crt cs), [])
  | ASend [] crt cs => (s, Some (AAdd cs), [])
  | ASend (g :: ls) crt cs => (s, Some (ASend ls crt cs), [CMsg (PrecertTo g crt)])
  | AMass => (mass s l, Some AClock, [])
  | AClock => (s, Some (AReal (unpadded (S m))), [])
  | AReal p => (s, Some (AFake p (generate_revocation z (cac_key c) (cac_self c) (cac_signer c) (a_crv s) (a_online s) p false)), [])
  | AFake p g => (s, Some (APre p g (generate_revocation z (cac_key c) (cac_self c) (cac_signer c) (a_crv s) (a_online s) p true)), [])
  | APre p g fk => (set_a_crv s (crv_next (a_crv s)), Some (AKeep p g fk), [])
  | AKeep p g fk => (keep_rev s p g, Some (AKeepFake p fk), [])
  | AKeepFake p fk => (keep_other s p fk, Some ACount, [])
  | ACount => (end_count s, Some AClear, [])
  | AClear => (set_a_pool s new_pool, None, [])
  | PHead q => (s, Some (PCert (mkloginfo (obj_at (a_sths s) (poi_logger q)) q)), [])
  | PCert i =>
      match get_by_ski (a_pool s) (poi_ski (li_poi i)) with
      | None => (s, None, [])
      | Some crt => (s, Some (PWrite (poi_ski (li_poi i)) (update_ctng crt i)), [])
      end
  | PWrite k crt => (set_a_pool s (update_by_ski (a_pool s) k crt), None, [])
  | QCount => (if Z.eqb (a_type s) 0 then s else set_a_count s (a_count s + 1), Some (QRead (a_count s)), [])
  | QRead n => (s, None, [CReply m (snd (request_rev (set_a_count s n) m))])
  end.

(** What happens: a period task starts (CA/server.go:341, 466), a tree head arrives (213-233: it is stored under a lock, in one step), a proof arrives, a monitor asks, a
    certificate is revoked (CRV.go:82-84), or the [n]th goroutine makes a step. *)
Inductive cfev := FTick (ds : list draw) | FHead (g : gobj) | FProof (q : poi) | FAsk | FRevoke (i : N) | FRun (n m : nat) (l : list N).

Definition cfstep (x : x509lib) (z : gzip) (c : caconf P) (cc : cconf P) (y : fca) (e : cfev) : fca * list cout :=
  match e with
  | FTick ds => (mkfc (fc_st y) (fc_go y ++ [AWipe ds])%list, [])
  | FHead g => (mkfc (fst (receive_sth cc (fc_st y) g)) (fc_go y), [])
  | FProof q => (mkfc (fc_st y) (fc_go y ++ [PHead q])%list, [])
  | FAsk => (mkfc (fc_st y) (fc_go y ++ [QCount])%list, [])
  | FRevoke i => (mkfc (set_a_crv (fc_st y) (crv_revoke (a_crv (fc_st y)) i)) (fc_go y), [])
  | FRun n m l =>
      match fc_go y !! n with
      | None => (y, [])
      | Some a => let '(s, a', o) := cgstep x z c (fc_st y) a m l in
                  (mkfc s (match a' with Some b => <[n := b]> (fc_go y) | None => delete n (fc_go y) end), o)
      end
  end.

(** A whole history. *)
Fixpoint cfrun (x : x509lib) (z : gzip) (c : caconf P) (cc : cconf P) (y : fca) (l : list cfev) : fca * list cout :=
  match l with
  | [] => (y, [])
  | e :: r => let '(y1, o1) := cfstep x z c cc y e in let '(y2, o2) := cfrun x z c cc y1 r in (y2, (o1 ++ o2)%list)
  end.
End fine.
