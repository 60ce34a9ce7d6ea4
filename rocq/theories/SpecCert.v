(** What is said about certificates, pools and the CTng extension. *)
From Verif Require Import Bytes Json Types Merkle Cert CertPool CTngExt.
Open Scope string_scope.

(** Two certificates the pool does not distinguish: same subject and same
    encoding. *)
Definition same_cert (a b : cert) : bool := String.eqb (c_subject a) (c_subject b) && String.eqb (c_raw a) (c_raw b).

(** The list without later copies. *)
Definition first_copies (l : list cert) : list cert :=
  fold_left (λ acc c, if existsb (same_cert c) acc then acc else (acc ++ [c])%list) l [].

(** Positions of the elements satisfying [f], in order. *)
Definition positions (f : cert -> bool) (l : list cert) : list nat :=
  List.filter (λ i, match l !! i with Some c => f c | None => false end) (seq 0 (length l)).

Definition add_all (l : list cert) : pool := fold_left add_cert l new_pool.

(** Pool operations other than lookups. *)
Inductive pool_op := PAdd (c : cert) | PUpdate (k : string) (c : cert).
Definition pool_step (s : pool) (o : pool_op) : pool :=
  match o with PAdd c => add_cert s c | PUpdate k c => update_by_ski s k c end.

(** Updates that keep subject and key identifier of the certificate they
    replace, as those of the CA do. *)
Definition keeps_names (s : pool) (o : pool_op) : Prop :=
  match o with
  | PAdd _ => True
  | PUpdate k c => forall d, get_by_ski s k = Some d -> c_subject c = c_subject d /\ c_ski c = c_ski d
  end.
Inductive pool_run : pool -> list pool_op -> pool -> Prop :=
| pr_nil s : pool_run s [] s
| pr_cons s o l s' : keeps_names s o -> pool_run (pool_step s o) l s' -> pool_run s (o :: l) s'.

(** An extension Go can represent: RID an int, paths uint32, and an
    encoding below 2^31 bytes. *)
Definition info_ok (i : loginfo) : Prop :=
  forall p, poi_proof (li_poi i) = Some p -> (pf_path p <= 4294967295)%N.
Definition ext_ok (x : ctngext) : Prop :=
  (- int64_max - 1 <= x_rid x <= int64_max)%Z /\ Forall info_ok (x_infos x) /\
  (N.of_nat (String.length (print_json (ctng_json x))) < 2147483648)%N.

(** The certificate carries a CTng extension. *)
Definition carries (c : cert) : Prop := exists e, e ∈ c_exts c /\ e_oid e = OID_CTNG.

(** A logger with the signer of [i] is listed. *)
Definition listed (i : loginfo) (l : list loginfo) : Prop :=
  exists j, j ∈ l /\ g_signer (li_sth j) = g_signer (li_sth i).
