(** definition/Types.go: gossip objects and their identifiers. *)
From Verif Require Import Bytes Hex Json.
Open Scope string_scope.

(** definition/Types.go:3-14, Gossip_object.  Signature [2]string is
    [g_s0], [g_s1]; Payload [3]string is [g_p0], [g_p1], [g_p2].
    A nil and an empty Signers slice are identified. *)
Record gobj : Type := mkobj {
  g_app : string;
  g_period : string;
  g_type : string;
  g_signer : string;
  g_signers : list string;
  g_s0 : string;
  g_s1 : string;
  g_time : string;
  g_scheme : string;
  g_p0 : string;
  g_p1 : string;
  g_p2 : string
}.

Global Instance gobj_eq_dec : EqDecision gobj.
Proof. solve_decision. Defined.

(** The Go zero value Gossip_object{}. *)
Definition zero_obj : gobj := mkobj "" "" "" "" [] "" "" "" "" "" "" "".

(** Go array equality obj1.Signature == obj2.Signature. *)
Definition same_sig (a b : gobj) : bool :=
  bool_decide (g_s0 a = g_s0 b) && bool_decide (g_s1 a = g_s1 b).

(** definition/Types.go:44. *)
Definition CTNG_APPLICATION : string := "CTng".

(** definition/Types.go:47-58, the type constants. *)
Definition STH_INIT : string := "http://ctng.uconn.edu/101".
Definition REV_INIT : string := "http://ctng.uconn.edu/102".
Definition ACC_INIT : string := "http://ctng.uconn.edu/103".
Definition CON_INIT : string := "http://ctng.uconn.edu/104".
Definition STH_FRAG : string := "http://ctng.uconn.edu/201".
Definition REV_FRAG : string := "http://ctng.uconn.edu/202".
Definition ACC_FRAG : string := "http://ctng.uconn.edu/203".
Definition STH_FULL : string := "http://ctng.uconn.edu/301".
Definition REV_FULL : string := "http://ctng.uconn.edu/302".
Definition ACC_FULL : string := "http://ctng.uconn.edu/303".

(** The statement families STH, REV, ACC and the tables of each stage.
    [okind] are the tables holding one object per identifier, [fkind]
    those holding a list of fragments. *)
Inductive fam := Sth | Rev | Acc.
Inductive okind := OInit (f : fam) | OCon | OFull (f : fam).
Inductive kind := KObj (k : okind) | KFrag (f : fam) | KUnknown.

Global Instance fam_eq_dec : EqDecision fam.
Proof. solve_decision. Defined.
Global Instance okind_eq_dec : EqDecision okind.
Proof. solve_decision. Defined.
Global Instance kind_eq_dec : EqDecision kind.
Proof. solve_decision. Defined.

(** [switch g.Type]: the case selected by a Go switch over the ten type
    constants; anything else is the default branch. *)
Definition kind_of (t : string) : kind :=
  if String.eqb t STH_INIT then KObj (OInit Sth)
  else if String.eqb t REV_INIT then KObj (OInit Rev)
  else if String.eqb t ACC_INIT then KObj (OInit Acc)
  else if String.eqb t CON_INIT then KObj OCon
  else if String.eqb t STH_FRAG then KFrag Sth
  else if String.eqb t REV_FRAG then KFrag Rev
  else if String.eqb t ACC_FRAG then KFrag Acc
  else if String.eqb t STH_FULL then KObj (OFull Sth)
  else if String.eqb t REV_FULL then KObj (OFull Rev)
  else if String.eqb t ACC_FULL then KObj (OFull Acc)
  else KUnknown.

Definition obj_kind (g : gobj) : kind := kind_of (g_type g).

Definition init_type (f : fam) : string :=
  match f with Sth => STH_INIT | Rev => REV_INIT | Acc => ACC_INIT end.
Definition frag_type (f : fam) : string :=
  match f with Sth => STH_FRAG | Rev => REV_FRAG | Acc => ACC_FRAG end.
Definition full_type (f : fam) : string :=
  match f with Sth => STH_FULL | Rev => REV_FULL | Acc => ACC_FULL end.

(** The type string of a known kind. *)
Definition okind_type (k : okind) : string :=
  match k with OInit f => init_type f | OCon => CON_INIT | OFull f => full_type f end.

(** definition/Types.go:62-66, Gossip_ID. *)
Record gid : Type := mkgid {
  i_period : string;
  i_type : string;
  i_entity : string
}.

Global Instance gid_eq_dec : EqDecision gid.
Proof. solve_decision. Defined.

Global Instance gid_countable : Countable gid.
Proof.
  refine (inj_countable' (λ i, (i_period i, i_type i, i_entity i))
                         (λ x, let '(p, t, e) := x in mkgid p t e) _).
  by intros [].
Defined.

(** definition/Types.go:68-70, Gossip_ID.String. *)
Definition gid_string (i : gid) : string := i_period i ++ i_type i ++ i_entity i.

(** definition/Types.go:72-79, GetID. *)
Definition get_id (g : gobj) : gid := mkgid (g_period g) (g_type g) (g_p0 g).

(** definition/Types.go:80-97, GetTargetType. *)
Definition target_type (g : gobj) : string :=
  match obj_kind g with
  | KObj (OInit f) => frag_type f
  | KFrag f => full_type f
  | _ => ""
  end.

(** The bytes covered by the signature: g.Payload[0]+g.Payload[1]+g.Payload[2]
    (definition/Verify.go:45,59,76; gossiper/gen.go:12). *)
Definition signed_msg (g : gobj) : string := g_p0 g ++ g_p1 g ++ g_p2 g.

(* ---------------------------------------------------------------- *)
(** * JSON forms (encoding/json applied to the struct tags) *)

(** json.Marshal(Gossip_object), struct tags of definition/Types.go:3-14. *)
Definition gobj_json (g : gobj) : json :=
  JObj ([("application", JStr (g_app g)); ("period", JStr (g_period g)); ("type", JStr (g_type g));
         ("signer", JStr (g_signer g))]
        ++ (match g_signers g with [] => [] | l => [("signers", JArr (map JStr l))] end)
        ++ [("signature", JArr [JStr (g_s0 g); JStr (g_s1 g)]); ("timestamp", JStr (g_time g));
            ("crypto_scheme", JStr (g_scheme g));
            ("payload", JArr [JStr (g_p0 g); JStr (g_p1 g); JStr (g_p2 g)])]).

Definition gobj_marshal (g : gobj) : string := print_json (gobj_json g).

(** One key of the incoming object.  encoding/json matches field names
    case-insensitively; unknown keys are ignored; short arrays leave
    the remaining elements zero and long ones are cut. *)
Definition gobj_field (g : gobj) (kv : string * json) : option gobj :=
  let '(k, v) := kv in
  let k := lower_str k in
  let '(mkobj a p t s ss s0 s1 ti sc p0 p1 p2) := g in
  if String.eqb k "application" then x ← dec_string a v; Some (mkobj x p t s ss s0 s1 ti sc p0 p1 p2)
  else if String.eqb k "period" then x ← dec_string p v; Some (mkobj a x t s ss s0 s1 ti sc p0 p1 p2)
  else if String.eqb k "type" then x ← dec_string t v; Some (mkobj a p x s ss s0 s1 ti sc p0 p1 p2)
  else if String.eqb k "signer" then x ← dec_string s v; Some (mkobj a p t x ss s0 s1 ti sc p0 p1 p2)
  else if String.eqb k "signers" then x ← dec_string_slice ss v; Some (mkobj a p t s x s0 s1 ti sc p0 p1 p2)
  else if String.eqb k "timestamp" then x ← dec_string ti v; Some (mkobj a p t s ss s0 s1 x sc p0 p1 p2)
  else if String.eqb k "crypto_scheme" then x ← dec_string sc v; Some (mkobj a p t s ss s0 s1 ti x p0 p1 p2)
  else if String.eqb k "signature" then
    match v with
    | JNull => Some g
    | JArr l => x ← dec_strings l; Some (mkobj a p t s ss (nth 0 x "") (nth 1 x "") ti sc p0 p1 p2)
    | _ => None
    end
  else if String.eqb k "payload" then
    match v with
    | JNull => Some g
    | JArr l => x ← dec_strings l; Some (mkobj a p t s ss s0 s1 ti sc (nth 0 x "") (nth 1 x "") (nth 2 x ""))
    | _ => None
    end
  else Some g.

Fixpoint gobj_fields (g : gobj) (l : list (string * json)) : option gobj :=
  match l with
  | [] => Some g
  | kv :: r => match gobj_field g kv with Some g' => gobj_fields g' r | None => None end
  end.

(** json.NewDecoder(r.Body).Decode(&gossip_obj) into a zero object
    (gossiper/gossiper_server.go:149-156). *)
Definition gobj_decode (s : string) : option gobj :=
  match decode_json s with
  | Some (JObj l) => gobj_fields zero_obj l
  | Some JNull => Some zero_obj
  | _ => None
  end.

(** definition/Types.go:35-41, STH. *)
Record sth : Type := mksth {
  sth_signer : string;
  sth_timestamp : string;
  sth_period : string;
  sth_root : string;
  sth_size : Z
}.

Definition zero_sth : sth := mksth "" "" "" "" 0.

(** json.Marshal(STH): no tags, so the Go field names. *)
Definition sth_json (x : sth) : json :=
  JObj [("Signer", JStr (sth_signer x)); ("Timestamp", JStr (sth_timestamp x));
        ("Period", JStr (sth_period x)); ("RootHash", JStr (sth_root x));
        ("TreeSize", JNum (itoa (sth_size x)))].

Definition sth_marshal (x : sth) : string := print_json (sth_json x).

Definition sth_field (x : sth) (kv : string * json) : option sth :=
  let '(k, v) := kv in
  let k := lower_str k in
  let '(mksth a b c d e) := x in
  if String.eqb k "signer" then y ← dec_string a v; Some (mksth y b c d e)
  else if String.eqb k "timestamp" then y ← dec_string b v; Some (mksth a y c d e)
  else if String.eqb k "period" then y ← dec_string c v; Some (mksth a b y d e)
  else if String.eqb k "roothash" then y ← dec_string d v; Some (mksth a b c y e)
  else if String.eqb k "treesize" then y ← dec_int e v; Some (mksth a b c d y)
  else Some x.

Fixpoint sth_fields (x : sth) (l : list (string * json)) : option sth :=
  match l with
  | [] => Some x
  | kv :: r => match sth_field x kv with Some x' => sth_fields x' r | None => None end
  end.

(** json.Unmarshal(bytes, &STH) into a zero STH. *)
Definition sth_unmarshal (s : string) : option sth :=
  match parse_json s with
  | Some (JObj l) => sth_fields zero_sth l
  | Some JNull => Some zero_sth
  | _ => None
  end.
