(** What Gossip_object.Verify is supposed to do, written without
    reference to the model of definition/Verify.go. *)
From Verif Require Import Bytes Types Crypto.
Open Scope string_scope.

Section spec.
Context {P : prims}.
Implicit Types (c : cconf P) (g h : gobj).

Definition is_init g : Prop := g_type g = STH_INIT \/ g_type g = REV_INIT \/ g_type g = ACC_INIT.
Definition is_frag g : Prop := g_type g = STH_FRAG \/ g_type g = REV_FRAG \/ g_type g = ACC_FRAG.
Definition is_full g : Prop := g_type g = STH_FULL \/ g_type g = REV_FULL \/ g_type g = ACC_FULL.
Definition is_con g : Prop := g_type g = CON_INIT.

(** The bytes a signature covers. *)
Definition covered g : string := g_p0 g ++ g_p1 g ++ g_p2 g.

(** [str] is an RSA signature string over [m] that checks under the key
    registered for the identity written in it. *)
Definition rsa_valid c (str m : string) : Prop :=
  exists s pk, rsasig_from_string str = Some s /\ cc_sign_scheme c = "rsa" /\
               cc_rsa_pubs c !! rs_id s = Some pk /\ rsa_check pk m (rs_sig s) = true.

(** The BLS key used for an identity: the registered one, or the zero key. *)
Definition key_used c (id : string) (pk : bls_pub P) : Prop :=
  cc_bls_pubs c !! id = Some pk \/ (cc_bls_pubs c !! id = None /\ pk = bls_pub0).

(** Signature and identity read from a fragment string; text that does
    not parse counts as the zero signature by the empty identity. *)
Definition frag_reads (str : string) (sg : bls_sig P) (id : string) : Prop :=
  (exists f, sigfrag_from_string str = (f, true) /\ sg = sf_sign f /\ id = sf_id f) \/
  (exists f : sigfrag P, sigfrag_from_string str = (f, false) /\ sg = bls_sig0 /\ id = "").

Definition frag_valid c (str m : string) : Prop :=
  exists sg id pk, frag_reads str sg id /\ cc_thr_scheme c = "bls" /\ key_used c id pk /\
                   bls_check pk m sg = true.

(** The aggregate checks against the keys of exactly the identities
    listed in it, of which there is at least one. *)
Definition full_valid c (str m : string) : Prop :=
  exists ids sg err keys, thrsig_from_string str = (mkthr ids sg, err) /\ ids <> [] /\
    cc_thr_scheme c = "bls" /\ Forall2 (key_used c) ids keys /\ bls_fast_check keys m sg = true.

(** The acceptance rule. *)
Definition acceptable c g : Prop :=
  (is_init g /\ g_s0 g <> "" /\ g_p0 g <> "" /\ rsa_valid c (g_s0 g) (covered g)) \/
  (is_frag g /\ g_s0 g <> "" /\ g_p0 g <> "" /\ frag_valid c (g_s0 g) (covered g)) \/
  (is_full g /\ g_s0 g <> "" /\ g_p0 g <> "" /\ full_valid c (g_s0 g) (covered g)) \/
  (is_con g /\ rsa_valid c (g_s0 g) (g_p1 g) /\ rsa_valid c (g_s1 g) (g_p2 g)).

(** Two objects agree on type, signatures and payload. *)
Definition same_core g h : Prop :=
  g_type g = g_type h /\ g_s0 g = g_s0 h /\ g_s1 g = g_s1 h /\
  g_p0 g = g_p0 h /\ g_p1 g = g_p1 h /\ g_p2 g = g_p2 h.

(** ** Who signed what

    [said id m]: the holder of identity [id] produced a signature over
    [m].  The three statements say that the primitives cannot be forged. *)
Definition rsa_unforgeable c (said : string -> string -> Prop) : Prop :=
  forall id pk m s, cc_rsa_pubs c !! id = Some pk -> rsa_check pk m s = true -> said id m.

(** A verifying aggregate was contributed to by every listed identity
    that has a key. *)
Definition bls_unforgeable c (said : string -> string -> Prop) : Prop :=
  forall ids keys m s, Forall2 (key_used c) ids keys -> bls_fast_check keys m s = true ->
    forall id, In id ids -> is_Some (cc_bls_pubs c !! id) -> said id m.

(** At least [n] distinct registered identities signed [m]. *)
Definition signed_by_at_least c (said : string -> string -> Prop) (n : nat) (m : string) : Prop :=
  exists ids, NoDup ids /\ n <= length ids /\
    forall id, In id ids -> is_Some (cc_bls_pubs c !! id) /\ said id m.

(** Two statements of one entity about the same period and kind that
    differ. *)
Definition equivocated (said : string -> string -> Prop) (e : string) : Prop :=
  exists g h, is_init g /\ get_id g = get_id h /\ g_p0 g = e /\ covered g <> covered h /\
    said e (covered g) /\ said e (covered h).

(** Laws of the BLS library. *)
Definition agg_correct : Prop :=
  forall m (l : list (bls_pub P * bls_sig P)), l <> [] -> Forall (λ x, bls_check (fst x) m (snd x) = true) l ->
    bls_fast_check (map fst l) m (bls_agg (map snd l)) = true.
Definition fast_perm : Prop :=
  forall m s (k1 k2 : list (bls_pub P)), k1 ≡ₚ k2 -> bls_fast_check k1 m s = bls_fast_check k2 m s.

End spec.
Arguments agg_correct : clear implicits.
Arguments fast_perm : clear implicits.
