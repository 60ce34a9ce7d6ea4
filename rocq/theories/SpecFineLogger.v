(** What is said about loggers whose tasks interleave. *)
From Verif Require Import Bytes Types Crypto Merkle Cert CertPool CTngExt Clock Logger FineLogger.
Open Scope string_scope.

Section spec.
Context {P : prims} (c : lconf P).

(** [x] is what remains of a precertificate that was submitted (its signature removed). *)
Definition fsub (l : list lfev) (x : cert) : Prop := exists x0, FSubmit x0 ∈ l /\ x = tbs_certificate x0.

(** [g] is a head for period [p], signed by the logger, of the tree over two or more different submitted certificates [certs]; [root] is the root. *)
Definition head_of (l : list lfev) (p : nat) (g : gobj) (root : string) (certs : list cert) : Prop :=
  exists t tr, (forall x, x ∈ certs -> fsub l x) /\ NoDup (map (λ x, (c_subject x, c_raw x)) certs) /\
    new_tree (h_sha256 P) (map c_subject certs) = Some tr /\ root = mt_root tr /\ g = sth_object c t root (length certs) p.

(** The head was posted to every CA. *)
Definition posted (o : list lout) (g : gobj) : Prop := forall ca, ca ∈ lc_cas c -> LMsg (SthTo ca g) ∈ o.

(** A task that holds the head and has yet to post it to some CAs. *)
Definition posting (a : lgoro) (g : gobj) : Prop :=
  match a with LKeepFake _ g' _ _ _ | LHeads _ g' _ _ => g' = g | _ => False end.

(** A proof for certificate [x], of inclusion in the tree with root [root], from this logger. *)
Definition proof_for (x : cert) (root : string) (q : poi) : Prop :=
  poi_ski q = c_ski x /\ poi_issuer q = c_issuer_cn x /\ poi_logger q = lc_signer c /\ verify_proof (h_sha256 P) (c_subject x) (poi_proof q) root = true.

(** Certificates with the same key identifier have the same subject. *)
Definition key_ids_agree (l : list cert) : Prop :=
  forall x y, x ∈ l -> y ∈ l -> c_ski x = c_ski y -> c_ski x <> "" -> c_subject x = c_subject y.

(** The certificates submitted in a history. *)
Definition arrivals (l : list lfev) : list cert := concat (map (λ e, match e with FSubmit x => [tbs_certificate x] | _ => [] end) l).
(** The task is not about to store a head for period [m]. *)
Definition other_period (m : nat) (a : lgoro) : Prop := match a with LTree p | LTwin p _ _ _ | LKeep p _ _ _ _ => p <> m | _ => True end.
End spec.
