(** Vocabulary for statements about what the whole system delivers. *)
From Verif Require Import Bytes Hex Json Types Crypto Verify Bitset CTngExt Revocation Prog Gossiper Network Overlap System SpecGossiper SpecNetwork SpecOverlap.
From Verif Require Cert Merkle Client.
From Verif Require Logger CA Monitor Client.
Open Scope string_scope.

(** The clocks of the gossipers stay in the period [p]. *)
Definition clocks_in (p : string) (l : list wevent) : Prop := forall u q sec st, EGossip (OTick u q sec st) ∈ l -> q = p.

(** Nobody outside the system poses as a gossiper, a logger or a CA towards the monitors. *)
Definition monitors_undisturbed (l : list wevent) : Prop :=
  forall y, EInject y ∈ l -> match y with ToMon _ _ | Response _ _ _ _ => False | _ => True end.

(** Somebody with the crypto configuration [cc] has the gossipers' public keys. *)
Definition knows_gossipers {P : prims} (cfgs : gmap string (gconf P)) (cc : cconf P) : Prop :=
  forall u c, cfgs !! u = Some c -> cc_thr_scheme cc = cc_thr_scheme (gc_crypto c) /\ cc_bls_pubs cc = cc_bls_pubs (gc_crypto c).

(** The storage of a monitor meant for the aggregate of the statement [g]. *)
Definition mon_table (s : Monitor.mst) (g : gobj) : gmap gid gobj := if decide (g_type g = STH_INIT) then Monitor.m_sth s else Monitor.m_rev s.

(** What a client with the databases [s] needs of the statement [g] to make use of it: of a tree head, that it can be read; of
    a revocation object, that its signed hash fits with what the client has. *)
Definition usable {P : prims} (z : gzip) (cc : cconf P) (s : Client.clst) (g : gobj) : Prop :=
  (g_type g = STH_INIT -> is_Some (Client.head_of g)) /\
  (g_type g = REV_INIT -> verify_srh cc (fst (srh_and_dcrv z g)) (snd (srh_and_dcrv z g)) (Client.cl_crv s !! g_p0 g) (g_period g) = Accept).

(** The log information [i] of the certificate [crt] proves that its subject is in the tree of the head in it. *)
Definition proves_inclusion {P : prims} (crt : Cert.cert) (i : loginfo) : Prop :=
  exists y q, Client.head_of (li_sth i) = Some y /\ poi_proof (li_poi i) = Some q /\
    Merkle.verify_proof (h_sha256 P) (Cert.c_subject crt) (Some q) (Client.hex_prefix (sth_root y)) = true.

(** No gossiper has stored two copies of one fragment (two handlers of a gossiper that run at the same time can do that). *)
Definition no_fragment_twice (p : string) (N : onet) (Gs : list gobj) : Prop :=
  forall u (y : gpool) g, on_nodes N !! u = Some y -> g ∈ Gs -> NoDup (fragments_held p (p_st y) g).
