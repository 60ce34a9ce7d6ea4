(** What a client is supposed to do, in terms of the updates it is given, its
    three databases and its verdicts. *)
From Verif Require Import Bytes Types Crypto Verify Merkle Cert CTngExt Bitset Revocation Monitor Client.
Open Scope string_scope.

(** An empty client, and one between two calls. *)
Definition fresh_client : clst := mkcl ∅ ∅ ∅ false false false.
Definition idle (s : clst) : Prop := cl_crv_lock s = false /\ cl_sth_lock s = false /\ cl_pom_lock s = false.

(** The loggers a certificate relies on, and its revocation bit. *)
Definition relied_on (crt : cert) : list loginfo := x_infos (parse_ctng crt).
Definition revoked_in (v : bitset) (crt : cert) : Prop :=
  (to_uint (cert_rid crt) < bs_len v)%N /\ N.testbit (bs_bits v) (to_uint (cert_rid crt)) = true.

(** Somebody is convicted. *)
Definition convicted (s : clst) (e : string) : Prop := is_Some (cl_pom s !! e).

(** What an update lists. *)
Definition update_lists (u : update) (g : gobj) : Prop := g ∈ u_sths u \/ g ∈ u_revs u \/ g ∈ u_accs u \/ g ∈ u_cons u.

(** An update with proofs only of the right kinds, as a monitor makes it. *)
Definition proofs_typed (u : update) : Prop :=
  (forall g, g ∈ u_accs u -> g_type g = ACC_FULL) /\ (forall g, g ∈ u_cons u -> g_type g = CON_INIT).

(** Every restart in a history comes after the databases were saved. *)
Definition durable (l : list clevent) : Prop := forall a b, l = (a ++ KRestart :: b)%list -> KSave ∈ a.

Section spec.
Context {P : prims} (z : gzip) (c : cconf P).

(** The rule: the logger is not convicted, its tree head verifies, the root in it is the one recorded for
    it and the period, and the proof leads from the subject to that root. *)
Definition vouches (s : clst) (crt : cert) (i : loginfo) : Prop :=
  let g := li_sth i in
  ~ convicted s (g_signer g) /\ verify c g = Accept /\
  exists x p, head_of g = Some x /\ cl_sth s !! (g_p0 g ++ "@" ++ g_period g) = Some (sth_root x) /\
    poi_proof (li_poi i) = Some p /\ verify_proof (h_sha256 P) (c_subject crt) (Some p) (hex_prefix (sth_root x)) = true.

(** Looking at the tree head of [i] does not panic. *)
Definition harmless (s : clst) (i : loginfo) : Prop := convicted s (g_signer (li_sth i)) \/ verify c (li_sth i) <> Panics.

(** A history of the client, from scratch, in which the process did not die. *)
Definition lived (l : list clevent) (y : clsys) (os : list outcome) : Prop := cl_run z c clsys_new l = Some (y, os).

(** The updates given to the client. *)
Definition given (l : list clevent) (g : gobj) : Prop := exists flag u, KUpdate flag u ∈ l /\ update_lists u g.

(** Every update is handled with verification. *)
Definition careful (l : list clevent) : Prop := forall u, KUpdate false u ∉ l.

(** Nothing in an update concerns the certificate: no tree head for its keys, no proof against its loggers. *)
Definition unrelated (u : update) (crt : cert) : Prop :=
  forall i, i ∈ relied_on crt ->
    (forall g, g ∈ u_sths u -> g_p0 g ++ "@" ++ g_period g <> g_p0 (li_sth i) ++ "@" ++ g_period (li_sth i)) /\
    (forall g, g ∈ u_accs u \/ g ∈ u_cons u -> g_p0 g <> g_signer (li_sth i)).

(** Every identity named in the signatures of an update has a key. *)
Definition identities_ok (u : update) : Prop :=
  (forall g str x, update_lists u g -> str = g_s0 g \/ str = g_s1 g -> rsasig_from_string str = Some x ->
     is_Some (cc_rsa_pubs c !! rs_id x)) /\
  (forall g, g ∈ u_revs u -> exists x, rsasig_from_string (fst (srh_and_dcrv z g)) = Some x /\ is_Some (cc_rsa_pubs c !! rs_id x)).
End spec.
