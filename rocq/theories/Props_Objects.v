(** C114 *)
From Verif Require Import Bytes Hex Json Types Crypto Verify Merkle Cert Bitset Revocation Prog Gossiper Clock SpecVerify SpecObjects ObjectsFacts Toy RefuteGossiper.
From Verif Require Logger Monitor Client.
From Verif Require Import RefuteLogger.
Open Scope string_scope.

(** C114: every object an entity makes has the application, type, period, signer, time and scheme it should have,
    and is about the right thing.  A fragment repeats the statement; *)
Theorem C114_fragment_form : forall (P : prims) (c : gconf P) g st st' ts fr,
  is_init g -> run (generate_frag c g) st = (st', ts, Done fr) ->
  (exists n, n ∈ ["1"; "2"; "3"] /\ g_type g = type_no ("10" ++ n) /\
     labelled fr (g_app g) (type_no ("20" ++ n)) (g_period g) (cc_self (gc_crypto c)) (g_signers g) (g_s1 g) (g_time g) "bls") /\
  payload_is fr (g_p0 g) (g_p1 g) (g_p2 g).
Proof. exact @fragment_form. Qed.
Print Assumptions C114_fragment_form.

(** an aggregate of the fragments [l] repeats the first of them and lists their signers; *)
Theorem C114_aggregate_form : forall (P : prims) (c : gconf P) l ty st st' ts full,
  run (generate_full c l ty) st = (st', ts, Done full) ->
  labelled full "CTng" ty (k_period st) "" (map g_signer l) "" (k_stamp st) "bls" /\
  exists g r, l = g :: r /\ payload_is full (g_p0 g) (g_p1 g) (g_p2 g).
Proof. exact @aggregate_form. Qed.
Print Assumptions C114_aggregate_form.

(** (of the type that belongs to the fragments); *)
Theorem C114_aggregate_type : forall n g, n ∈ ["1"; "2"; "3"] -> g_type g = type_no ("20" ++ n) -> target_type g = type_no ("30" ++ n).
Proof. exact aggregate_type. Qed.
Print Assumptions C114_aggregate_type.

(** a conflict proof contains both versions with their signatures; *)
Theorem C114_conflict_form : forall period stamp a b,
  let con := generate_con (period, stamp) a b in
  labelled con "CTng" (type_no "104") period "" [] (g_s0 b) stamp "" /\ g_s0 con = g_s0 a /\
  payload_is con (g_p0 a) (g_p0 a ++ g_p1 a ++ g_p2 a) (g_p0 b ++ g_p1 b ++ g_p2 b).
Proof. exact @conflict_form. Qed.
Print Assumptions C114_conflict_form.

(** a tree head says how many certificates there are and what the root is; *)
Theorem C114_head_form : forall (P : prims) (c : @Logger.lconf P) certs t m g root pois,
  Logger.build_tree c certs t m = Some (g, root, pois) ->
  labelled g "CTng" (type_no "101") (itoa (Z.of_nat m)) (Logger.lc_signer c) [] "" (Logger.n_stamp t) "RSA" /\
  (exists p1, payload_is g (Logger.lc_signer c) p1 "") /\
  Client.head_of g = Some (mksth (Logger.lc_signer c) (Logger.n_stamp t) (pad2 (Logger.n_minute t)) (hex_encode root) (Z.of_nat (length certs))).
Proof. exact @head_form. Qed.
Print Assumptions C114_head_form.

(** a revocation object, *)
Theorem C114_revocation_form : forall (P : prims) z (sk : rsa_sec P) self signer v online period fake,
  let g := generate_revocation z sk self signer v online period fake in
  labelled g "CTng" (type_no "102") period signer [] "" "" "RSA" /\
  (exists p2, payload_is g signer "CRV" p2) /\ rv_period (rev_unmarshal (g_p2 g)) = period.
Proof. exact @revocation_form. Qed.
Print Assumptions C114_revocation_form.

(** and an accusation. *)
Theorem C114_accusation_form : forall (P : prims) (c : @Monitor.mconf P) m stamp e,
  let g := Monitor.accusation c m stamp e in
  labelled g "CTng" (type_no "103") (pad2 m) (cc_self (Monitor.mc_crypto c)) [] "" stamp "RSA" /\ payload_is g e "" "".
Proof. exact @accusation_form. Qed.
Print Assumptions C114_accusation_form.

Example C114_ex_fragment : is_init sth_a /\
  match run (generate_frag cfg1 sth_a) (init_gst "07" "s" "t") with (_, _, Done fr) => g_signer fr = "g1" /\ g_p0 fr = log1 | _ => False end.
Proof. split; [by left|]. vm_compute. by split. Qed.
Example C114_ex_aggregate :
  match run (generate_full cfg1 [frag_g2; frag_g3] STH_FULL) (init_gst "07" "s" "t") with (_, _, Done g) => g_signers g = ["g2"; "g3"] | _ => False end.
Proof. vm_compute. reflexivity. Qed.
Example C114_ex_head :
  match Logger.build_tree toy_logger [toy_cert "s1" "k1" 1; toy_cert "s2" "k2" 2] (Logger.mknow 7 "s") 7 with
  | Some (g, _, _) => g_period g = "7" | None => False end.
Proof. vm_compute. reflexivity. Qed.
