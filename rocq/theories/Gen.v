(** Gen/Gen.go and Gen/IPmapping.go: generating the configurations of a
    deployment and mapping them from localhost to IP addresses.

    Public and private configuration files are modelled as the values they
    hold, crypto configuration files as their text. *)
From Verif Require Import Bytes Hex Base64 Json Crypto CTngExt CryptoIO.
Open Scope string_scope.

(* ---------------------------------------------------------------- *)
(** * Names *)

Inductive kind := KCA | KLogger | KMonitor | KGossiper.

Global Instance kind_eq_dec : EqDecision kind.
Proof. solve_decision. Defined.

(** Gen/Gen.go:17-20 and 21-24, the URL and port prefixes. *)
Definition prefix (k : kind) : string :=
  match k with
  | KCA => "localhost:6"
  | KLogger => "localhost:7"
  | KMonitor => "localhost:8"
  | KGossiper => "localhost:9"
  end.

Definition port_prefix (k : kind) : string :=
  match k with KCA => "6" | KLogger => "7" | KMonitor => "8" | KGossiper => "9" end.

(** Gen/Gen.go:27-37, Port_Postfix. *)
Definition port_postfix (key : nat) : string :=
  if Nat.ltb key 10 then "00" ++ itoa (Z.of_nat key)
  else if Nat.ltb key 100 then "0" ++ itoa (Z.of_nat key)
  else if Nat.ltb key 1000 then itoa (Z.of_nat key)
  else "".

(** The URL of the i-th entity of a kind (Gen/Gen.go:76, 77, 80, 83, 94,
    118) and its port (Gen/Gen.go:96, 120, 185, 218). *)
Definition url (k : kind) (i : nat) : string := prefix k ++ port_postfix i.
Definition port (k : kind) (i : nat) : string := port_prefix k ++ port_postfix i.

(** Gen/Gen.go:70-86, Generate_all_list, one of the four lists. *)
Definition urls (k : kind) (n : nat) : list string := map (url k) (seq 0 n).

(* ---------------------------------------------------------------- *)
(** * Configurations *)

(** CA/types.go:53-68. *)
Record ca_pub := mkca_pub { cap_cas : list string; cap_loggers : list string; cap_mmd : Z; cap_mrd : Z; cap_http : list string }.
Record ca_priv := mkca_priv { cav_signer : string; cav_port : string; cav_loggers : list string;
  cav_monitors : list string; cav_gossipers : list string; cav_certs : Z }.
(** Logger/Types.go:16-30. *)
Record lg_pub := mklg_pub { lgp_cas : list string; lgp_loggers : list string; lgp_mmd : Z; lgp_mrd : Z; lgp_http : list string }.
Record lg_priv := mklg_priv { lgv_signer : string; lgv_port : string; lgv_cas : list string;
  lgv_monitors : list string; lgv_gossipers : list string }.
(** monitor/types.go:58-73. *)
Record mn_pub := mkmn_pub { mnp_cas : list string; mnp_loggers : list string; mnp_wait : Z; mnp_mmd : Z; mnp_mrd : Z }.
Record mn_priv := mkmn_priv { mnv_cas : list string; mnv_loggers : list string; mnv_signer : string;
  mnv_gossiper : string; mnv_inbound : string; mnv_port : string }.
(** gossiper/types.go:13-25. *)
Record go_pub := mkgo_pub { gop_wait : Z; gop_mmd : Z; gop_mrd : Z; gop_gossipers : list string; gop_signers : list string }.
Record go_priv := mkgo_priv { gov_connected : list string; gov_owner : string; gov_port : string }.

(** Gen/Gen.go:88-110, GenerateCA_private_config_map.  [None]: L_list
    is empty and i % len(L_list) divides by zero. *)
Definition ca_priv_at (G M L : list string) (certs : Z) (i : nat) : option ca_priv :=
  match L !! (i mod length L), L !! (length L - 1 - i mod length L) with
  | Some l1, Some l2 => Some (mkca_priv (url KCA i) (port KCA i) [l1; l2] M G certs)
  | _, _ => None
  end.

Fixpoint ca_priv_map (G M L : list string) (certs : Z) (is : list nat) (m : gmap string ca_priv) : option (gmap string ca_priv) :=
  match is with
  | [] => Some m
  | i :: r =>
      match ca_priv_at G M L certs i with
      | Some v => ca_priv_map G M L certs r (<[cav_signer v := v]> m)
      | None => None
      end
  end.

(** Gen/Gen.go:112-131, GenerateLogger_private_config_map. *)
Definition lg_priv_map (G M C : list string) (n : nat) : gmap string lg_priv :=
  fold_left (λ m i, <[url KLogger i := mklg_priv (url KLogger i) (port KLogger i) C M G]> m) (seq 0 n) ∅.

(** Gen/Gen.go:133-173 and 193-201, the public configurations. *)
Definition ca_pub_of (L C : list string) (MMD MRD : Z) : ca_pub := mkca_pub C L MMD MRD ["1.1"].
Definition lg_pub_of (L C : list string) (MMD MRD : Z) : lg_pub := mklg_pub C L MMD MRD ["1.1"].
Definition mn_pub_of (L C : list string) (MMD MRD wait : Z) : mn_pub := mkmn_pub C L wait MMD MRD.
Definition go_pub_of (G M : list string) (MMD MRD wait : Z) : go_pub := mkgo_pub wait MMD MRD G M.

(** Gen/Gen.go:175-191, GenerateMonitor_private_config_map; None: G_list
    is shorter than M_list (index out of range). *)
Fixpoint mn_priv_map (G M C L : list string) (is : list nat) (m : gmap string mn_priv) : option (gmap string mn_priv) :=
  match is with
  | [] => Some m
  | i :: r =>
      match M !! i, G !! i with
      | Some s, Some g => mn_priv_map G M C L r (<[s := mkmn_priv C L s g (port KGossiper i) (port KMonitor i)]> m)
      | _, _ => None
      end
  end.

(** Gen/Gen.go:206-212: all gossipers but the i-th. *)
Definition connected (G : list string) (i : nat) : list string :=
  omap (λ j, if Nat.eqb i j then None else G !! j) (seq 0 (length G)).

(** Gen/Gen.go:203-224, GenerateGossiper_private_config_map. *)
Fixpoint go_priv_map (G M : list string) (is : list nat) (m : gmap string go_priv) : option (gmap string go_priv) :=
  match is with
  | [] => Some m
  | i :: r =>
      match M !! i, G !! i with
      | Some o, Some g => go_priv_map G M r (<[g := mkgo_priv (connected G i) o (port KGossiper i)]> m)
      | _, _ => None
      end
  end.

Section gen.
Context {P : prims} (K : keyio P).
(** The keys drawn by the successive calls of the two key generators. *)
Context (rsa_rand : nat -> rsa_sec P) (bls_rand : nat -> bls_sec P).

(** Gen/Gen.go:39-68, GenerateCryptoconfig_map: the part without keys. *)
Definition crypto_map (total : nat) (threshold : Z) (k : kind) (n : nat) : gmap string (scc (P:=P)) :=
  fold_left (λ m i, <[url k i := mkscc (url k i) threshold (Z.of_nat total) 4 "rsa" "bls" ∅ (rsa_sec0 K) ∅ ""]> m) (seq 0 n) ∅.

(** Gen/Gen.go:264-270, RSA_gen_all. *)
Definition rsa_gen_all (G M C L : list string) : gmap string (rsa_pub P) * gmap string (rsa_sec P) :=
  rsa_gen K rsa_rand 0 (G ++ M ++ C ++ L) ∅ ∅.

(** Gen/Gen.go:272-292, BLS_gen_all: the threshold of the key generation
    is the number of gossipers; its error (fewer than two) is
    printed and leaves nil maps. *)
Definition bls_gen_all (G : list string) : gmap string string * gmap string string :=
  let '(pub, priv) := default (∅, ∅) (threshold_keypairs K bls_rand G (length G)) in
  (bls_map_ser K pub,
   fold_left (λ m g, <[g := bls_sec_ser K (default (bls_sec0 K) (priv !! g))]> m) G ∅).

(** One generated entity: the contents of its three files
    (Gen/Gen.go:226-237, write_all_configs_to_file). *)
Record entity (A B : Type) := mkentity { e_pub : A; e_priv : B; e_crypto : string }.
Arguments mkentity {A B}. Arguments e_pub {A B}. Arguments e_priv {A B}. Arguments e_crypto {A B}.

(** The crypto configuration of the entity with identity [id]
    (Gen/Gen.go:342-350, 358-366, 384-392, 410-418).  None: a nil private key is
    dereferenced. *)
Definition entity_crypto (m : gmap string (scc (P:=P))) (rp : gmap string (rsa_pub P)) (rs : gmap string (rsa_sec P))
    (bp : gmap string string) (bsec : string) (id : string) : option string :=
  match rs !! id with
  | None => None
  | Some sk =>
      let s := default (scc0 K) (m !! id) in
      Some (gen_write (scc_json K (mkscc (sc_self s) (sc_threshold s) (sc_n s) (sc_hash s) (sc_sign_scheme s) (sc_thr_scheme s)
                                      rp sk bp bsec)))
  end.

(** Everything Generateall writes, in the order of the directories 1, 2, ... *)
Record deployment := mkdep {
  dp_cas : list (entity ca_pub ca_priv);
  dp_loggers : list (entity lg_pub lg_priv);
  dp_monitors : list (entity mn_pub mn_priv);
  dp_gossipers : list (entity go_pub go_priv)
}.

(** A map lookup that yields the zero value in Go; the loops only look up
    keys they inserted, a miss is reported as None. *)
Definition build {A B} (pub : A) (privs : gmap string B) (crypto : string -> option string) (id : string) : option (entity A B) :=
  match privs !! id, crypto id with
  | Some v, Some c => Some (mkentity pub v c)
  | _, _ => None
  end.

(** Gen/Gen.go:302-421, Generateall.  MRD is not used: every call passes
    MMD twice.  None: a panic.  Directories and file system errors are
    not modelled. *)
Definition generate_all (ng : nat) (threshold : Z) (nl nc : nat) (certs MMD MRD : Z) : option deployment :=
  let G := urls KGossiper ng in
  let M := urls KMonitor ng in
  let C := urls KCA nc in
  let L := urls KLogger nl in
  let '(rp, rs) := rsa_gen_all G M C L in
  let '(bp, bs) := bls_gen_all G in
  match ca_priv_map G M L certs (seq 0 nc) ∅, mn_priv_map G M C L (seq 0 ng) ∅, go_priv_map G M (seq 0 ng) ∅ with
  | Some cav, Some mnv, Some gov =>
      match mapM (build (ca_pub_of L C MMD MMD) cav (λ id, entity_crypto (crypto_map ng threshold KCA nc) rp rs bp "" id)) C,
            mapM (build (lg_pub_of L C MMD MMD) (lg_priv_map G M C nl) (λ id, entity_crypto (crypto_map ng threshold KLogger nl) rp rs bp "" id)) L,
            mapM (build (mn_pub_of L C MMD MMD 5) mnv (λ id, entity_crypto (crypto_map ng threshold KMonitor ng) rp rs bp "" id)) M,
            mapM (build (go_pub_of G M MMD MMD 5) gov (λ id, entity_crypto (crypto_map ng threshold KGossiper ng) rp rs bp (default "" (bs !! id)) id)) G with
      | Some a, Some b, Some c, Some d => Some (mkdep a b c d)
      | _, _, _, _ => None
      end
  | _, _, _ => None
  end.

(* ---------------------------------------------------------------- *)
(** * Mapping to IP addresses *)

(** Gen/IPmapping.go:20-25, IP_Json: one table per kind; a missing entry
    reads as the empty string. *)
Definition iptable := kind -> gmap nat string.
Definition ip_of (t : iptable) (k : kind) (i : nat) : string := default "" (t k !! i).

(** Gen/IPmapping.go:27-54, Generate_IP_Json_template. *)
Definition ip_template (nc nl nmg : nat) (ca_mask : string) (ca_off : Z) (lg_mask : string) (lg_off : Z)
    (mg_mask : string) (mg_off : Z) : iptable :=
  let tab n mask off := fold_left (λ m i, <[i := mask ++ itoa (Z.of_nat i + off)]> m) (seq 0 n) ∅ in
  λ k, match k with
       | KCA => tab nc ca_mask ca_off
       | KLogger => tab nl lg_mask lg_off
       | KMonitor | KGossiper => tab nmg mg_mask mg_off
       end.

(** The Go slice expressions s[len(s)-n:] and s[0:n]; None: the slice
    bounds are out of range. *)
Definition last_n (n : nat) (s : string) : option string :=
  if Nat.ltb (len s) n then None else Some (String.substring (len s - n) n s).
Definition first_n (n : nat) (s : string) : option string :=
  if Nat.ltb (len s) n then None else Some (String.substring 0 n s).

(** strconv.Atoi with the error ignored: 0 on failure.  As a map key only
    natural numbers matter (a negative key is never present). *)
Definition atoi0 (s : string) : Z := default 0%Z (atoi s).
Definition ip_at (t : iptable) (k : kind) (z : Z) : string := if (z <? 0)%Z then "" else ip_of t k (Z.to_nat z).

(** ip + semicolon_and_port (Gen/IPmapping.go:86-87 and all similar). *)
Definition readdress (ip s : string) : option string := (λ p, ip ++ p) <$> last_n 5 s.

(** The switch on the first eleven characters (Gen/IPmapping.go:83-103,
    115-134, 143-162).  None: log.Fatal or a slice panic. *)
Definition kind_of (s : string) : option kind :=
  match first_n 11 s with
  | Some p => if String.eqb p (prefix KCA) then Some KCA
              else if String.eqb p (prefix KLogger) then Some KLogger
              else if String.eqb p (prefix KMonitor) then Some KMonitor
              else if String.eqb p (prefix KGossiper) then Some KGossiper
              else None
  | None => None
  end.

(** The new key of an identity in the key maps: the number is the last
    three characters (Gen/IPmapping.go:108-135, 136-163). *)
Definition rekey (t : iptable) (s : string) : option string :=
  match last_n 5 s, last_n 3 s, kind_of s with
  | Some p, Some d, Some k => Some (ip_at t k (atoi0 d) ++ p)
  | _, _, _ => None
  end.

(** The new SelfID: the number is the entity number ID, counted from 1
    (Gen/IPmapping.go:83-103). *)
Definition reself (t : iptable) (s : string) (ID : nat) : option string :=
  match kind_of s with
  | Some k => readdress (ip_at t k (Z.of_nat ID - 1)) s
  | None => None
  end.

(** The loops over a key map.  Simplification: when two identities get the
    same new key Go keeps whichever comes last in its random order, the model
    the last in its own. *)
Fixpoint rekey_map {V} (t : iptable) (l : list (string * V)) (m : gmap string V) : option (gmap string V) :=
  match l with
  | [] => Some m
  | (k, v) :: r =>
      match rekey t k with
      | Some k' => rekey_map t r (<[k' := v]> m)
      | None => None
      end
  end.

(** Gen/IPmapping.go:79-171, Map_local_to_IP_crypto_config, from the old
    to the new text of the file.  None: log.Fatal or a panic. *)
Definition map_crypto (t : iptable) (ID : nat) (file : string) : option string :=
  let c := fst (read_cconf K file) in
  match reself t (cc_self c) ID, rekey_map t (map_to_list (cc_rsa_pubs c)) ∅, rekey_map t (map_to_list (cc_bls_pubs c)) ∅ with
  | Some self, Some rp, Some bp =>
      Some (write_cconf K (mkcconf P (cc_threshold c) (cc_n c) (cc_hash c) (cc_sign_scheme c) (cc_thr_scheme c) self rp (cc_rsa_sec c) bp (cc_bls_sec c)))
  | _, _, _ => None
  end.

(** A list mapped by position (Gen/IPmapping.go:206-212, 214-220, 270-284,
    297-311, 318-332, 339-352, 360-374, 382-396). *)
Definition by_index (t : iptable) (k : kind) (l : list string) : option (list string) :=
  mapM (λ e, readdress (ip_of t k (fst e)) (snd e)) (zip (seq 0 (length l)) l).

(** Gen/IPmapping.go:203-233, Map_local_to_Monitor_IP_priv_config. *)
Definition map_mn_priv (t : iptable) (MID : nat) (v : mn_priv) : option mn_priv :=
  match by_index t KCA (mnv_cas v), by_index t KLogger (mnv_loggers v),
        readdress (ip_at t KGossiper (Z.of_nat MID - 1)) (mnv_gossiper v),
        readdress (ip_at t KMonitor (Z.of_nat MID - 1)) (mnv_signer v) with
  | Some cs, Some ls, Some g, Some s => Some (mkmn_priv cs ls s g (mnv_inbound v) (mnv_port v))
  | _, _, _, _ => None
  end.

(** Gen/IPmapping.go:235-251, Map_local_to_Gossiper_IP_priv_config; the
    owner is looked up in the table of the gossipers. *)
Definition map_go_priv (t : iptable) (MID : nat) (v : go_priv) : option go_priv :=
  match mapM (λ g, match last_n 3 g with Some d => readdress (ip_at t KGossiper (atoi0 d)) g | None => None end) (gov_connected v),
        readdress (ip_at t KGossiper (Z.of_nat MID - 1)) (gov_owner v) with
  | Some cs, Some o => Some (mkgo_priv cs o (gov_port v))
  | _, _ => None
  end.

(** Gen/IPmapping.go:253-286, Map_local_to_CA_IP_priv_config: the loggers
    get the IP number MID-1 of the loggers. *)
Definition map_ca_priv (t : iptable) (MID : nat) (v : ca_priv) : option ca_priv :=
  match readdress (ip_at t KCA (Z.of_nat MID - 1)) (cav_signer v),
        mapM (readdress (ip_at t KLogger (Z.of_nat MID - 1))) (cav_loggers v),
        by_index t KMonitor (cav_monitors v), by_index t KGossiper (cav_gossipers v) with
  | Some s, Some ls, Some ms, Some gs => Some (mkca_priv s (cav_port v) ls ms gs (cav_certs v))
  | _, _, _, _ => None
  end.

(** Gen/IPmapping.go:288-313, Map_local_to_Logger_IP_priv_config: the list
    of CAs is not touched. *)
Definition map_lg_priv (t : iptable) (MID : nat) (v : lg_priv) : option lg_priv :=
  match readdress (ip_at t KLogger (Z.of_nat MID - 1)) (lgv_signer v),
        by_index t KMonitor (lgv_monitors v), by_index t KGossiper (lgv_gossipers v) with
  | Some s, Some ms, Some gs => Some (mklg_priv s (lgv_port v) (lgv_cas v) ms gs)
  | _, _, _ => None
  end.

(** Gen/IPmapping.go:315-398, the public configurations. *)
Definition map_mn_pub (t : iptable) (v : mn_pub) : option mn_pub :=
  match by_index t KCA (mnp_cas v), by_index t KLogger (mnp_loggers v) with
  | Some cs, Some ls => Some (mkmn_pub cs ls (mnp_wait v) (mnp_mmd v) (mnp_mrd v))
  | _, _ => None
  end.
Definition map_go_pub (t : iptable) (v : go_pub) : option go_pub :=
  match by_index t KGossiper (gop_gossipers v), by_index t KMonitor (gop_signers v) with
  | Some gs, Some ss => Some (mkgo_pub (gop_wait v) (gop_mmd v) (gop_mrd v) gs ss)
  | _, _ => None
  end.
Definition map_ca_pub (t : iptable) (v : ca_pub) : option ca_pub :=
  match by_index t KCA (cap_cas v), by_index t KLogger (cap_loggers v) with
  | Some cs, Some ls => Some (mkca_pub cs ls (cap_mmd v) (cap_mrd v) (cap_http v))
  | _, _ => None
  end.
Definition map_lg_pub (t : iptable) (v : lg_pub) : option lg_pub :=
  match by_index t KCA (lgp_cas v), by_index t KLogger (lgp_loggers v) with
  | Some cs, Some ls => Some (mklg_pub cs ls (lgp_mmd v) (lgp_mrd v) (lgp_http v))
  | _, _ => None
  end.

(** One entity (Gen/IPmapping.go:400-444, the body of the loops). *)
Definition map_entity {A B} (t : iptable) (fpub : A -> option A) (fpriv : nat -> B -> option B) (ID : nat) (e : entity A B) :
    option (entity A B) :=
  match fpriv ID (e_priv e), fpub (e_pub e), map_crypto t ID (e_crypto e) with
  | Some v, Some p, Some c => Some (mkentity p v c)
  | _, _, _ => None
  end.

Definition map_entities {A B} (t : iptable) (fpub : A -> option A) (fpriv : nat -> B -> option B) (l : list (entity A B)) :
    option (list (entity A B)) :=
  mapM (λ e, map_entity t fpub fpriv (fst e) (snd e)) (zip (seq 1 (length l)) l).

(** Gen/IPmapping.go:400-444, Map_all; None: the program stops. *)
Definition map_all (t : iptable) (d : deployment) : option deployment :=
  match map_entities t (map_ca_pub t) (map_ca_priv t) (dp_cas d),
        map_entities t (map_lg_pub t) (map_lg_priv t) (dp_loggers d),
        map_entities t (map_mn_pub t) (map_mn_priv t) (dp_monitors d),
        map_entities t (map_go_pub t) (map_go_priv t) (dp_gossipers d) with
  | Some a, Some b, Some c, Some g => Some (mkdep a b c g)
  | _, _, _, _ => None
  end.

End gen.

Arguments mkentity {A B}. Arguments e_pub {A B}. Arguments e_priv {A B}. Arguments e_crypto {A B}.
