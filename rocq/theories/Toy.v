(** A concrete record of primitives, used only to exhibit instances of
    hypotheses and counterexamples.

    RSA: the signature is the key followed by the message.  BLS: the group is Z, the
    secret and public key are the same number, a signature is key times a
    checksum of the message, aggregation is addition.  SHA-256
    prepends a character (hence is without collisions). *)
From Verif Require Import Bytes Hex Json Types Crypto Verify Gossiper.
Open Scope string_scope.

Definition toy_hash (m : string) : Z :=
  (fix go (m : string) (acc : Z) : Z :=
     match m with EmptyString => acc | String c r => go r ((acc * 31 + Z.of_N (N_of_ascii c)) mod 65521)%Z end) m 1%Z.

Definition zsum (l : list Z) : Z := fold_right Z.add 0%Z l.

Definition toy : prims := {|
  rsa_pub := string;
  rsa_sec := string;
  rsa_sign := λ sk m, sk ++ ":" ++ m;
  rsa_check := λ pk m s, String.eqb s (pk ++ ":" ++ m);
  rsa_nokey_panics := true;
  bls_pub := Z;
  bls_sec := Z;
  bls_sig := Z;
  bls_pub0 := 0%Z;
  bls_sig0 := 0%Z;
  bls_sign := λ sk m, (sk * toy_hash m)%Z;
  bls_check := λ pk m s, Z.eqb s (pk * toy_hash m);
  bls_agg := zsum;
  bls_fast_check := λ pks m s, Z.eqb s (zsum pks * toy_hash m);
  bls_ser := itoa;
  bls_deser := atoi;
  h_sha256 := String "#";
  h_md5 := λ m, m
|}.

(** Three gossipers g1, g2, g3 with keys 1, 10, 100; two loggers and a CA
    with RSA keys; threshold two. *)
Definition toy_rsa : gmap string string :=
  {[ "localhost:9100" := "k1"; "localhost:9101" := "k2"; "localhost:9000" := "k3" ]}.
Definition toy_bls : gmap string Z := {[ "g1" := 1%Z; "g2" := 10%Z; "g3" := 100%Z ]}.

Definition toy_cc (self : string) (sk : Z) : cconf toy :=
  mkcconf toy 2 3 4 "rsa" "bls" self toy_rsa "" toy_bls sk.

Definition toy_conf (self : string) (sk : Z) : gconf toy :=
  mkgconf (toy_cc self sk) (List.filter (λ u, negb (String.eqb u self)) ["g1"; "g2"; "g3"]) "m1" 2 1 10 true.

(** An RSA signature string by identity [id] with key [sk]. *)
Definition toy_rsa_sig (sk id m : string) : string := rsasig_string (mkrsasig (sk ++ ":" ++ m) id).

(** An honest STH_INIT of logger [id] with key [sk]. *)
Definition toy_init (ty period sk id p1 p2 : string) : gobj :=
  mkobj CTNG_APPLICATION period ty id [] (toy_rsa_sig sk id (id ++ p1 ++ p2)) "" "t" "rsa" id p1 p2.

Definition toy_frag (ty period self : string) (sk : Z) (p0 p1 p2 : string) : gobj :=
  mkobj CTNG_APPLICATION period ty self [] 
        (sigfrag_string (P:=toy) (mkfrag (P:=toy) (sk * toy_hash (p0 ++ p1 ++ p2))%Z self)) "" "t" "bls" p0 p1 p2.

(** Ideal signatures: a check succeeds exactly if the owner of the key
    signed the message.  [R] and [B] list the signatures that were made
    (RSA key and message, BLS key and message); the zero BLS key
    is neutral, as in the pairing library. *)
Definition ideal (R : list (string * string)) (B : list (Z * string)) : prims := {|
  rsa_pub := string;
  rsa_sec := string;
  rsa_sign := λ sk m, "s";
  rsa_check := λ pk m s, bool_decide ((pk, m) ∈ R);
  rsa_nokey_panics := true;
  bls_pub := Z;
  bls_sec := Z;
  bls_sig := unit;
  bls_pub0 := 0%Z;
  bls_sig0 := tt;
  bls_sign := λ sk m, tt;
  bls_check := λ pk m s, bool_decide ((pk, m) ∈ B);
  bls_agg := λ _, tt;
  bls_fast_check := λ pks m s, forallb (λ pk, Z.eqb pk 0 || bool_decide ((pk, m) ∈ B)) pks;
  bls_ser := λ _, "s";
  bls_deser := λ s, Some tt;
  h_sha256 := String "#";
  h_md5 := λ m, m
|}.

Definition ideal_cc R B (self : string) : cconf (ideal R B) :=
  mkcconf (ideal R B) 2 3 4 "rsa" "bls" self toy_rsa "" toy_bls 0%Z.

(** Who signed what in the ideal world. *)
Definition ideal_rsa_said (R : list (string * string)) (id m : string) : Prop :=
  exists k, toy_rsa !! id = Some k /\ (k, m) ∈ R.
Definition ideal_bls_said (B : list (Z * string)) (id m : string) : Prop :=
  exists k, toy_bls !! id = Some k /\ (k, m) ∈ B.
