(** Functions that no running component calls: Verifyprecert, LoadOneStorage and FetchCertificate. *)
From Verif Require Import Bytes Hex Base64 Json Types Crypto Verify Cert CertPool Bitset CTngExt Revocation Clock Logger Monitor.
Open Scope string_scope.

Section logger.
Context {P : prims}.

(** Logger/Types.go:63-70, inList. *)
Fixpoint in_list (item : string) (l : list string) : bool :=
  match l with
  | [] => false
  | i :: r => if String.eqb i item then true else in_list item r
  end.

(** Logger/Types.go:72-90, Verifyprecert, with the list of CAs of the private configuration and the
    keys of the crypto configuration.  For an issuer without key RSAVerify gets the zero public key and fails. *)
Definition verify_precert (cas : list string) (keys : gmap string (rsa_pub P)) (c : cert) : bool :=
  if in_list (c_issuer_cn c) cas then
    match keys !! c_issuer_cn c with
    | Some pk => rsa_check pk (c_tbs c) (c_sig c)
    | None => false
    end
  else false.
End logger.

(** json.Unmarshal into []Gossip_object. *)
Definition objs_unmarshal (s : string) : option (list gobj) :=
  match parse_json s with Some v => dec_objs [] v | None => None end.

(** json.Marshal of []Gossip_object. *)
Definition objs_marshal (l : list gobj) : string := print_json (JArr (map gobj_json l)).

(** The loops of LoadOneStorage. *)
Definition put_all (m : gmap gid gobj) (l : list gobj) : gmap gid gobj := fold_left (λ m g, <[get_id g := g]> m) l m.

(** monitor/types.go:134-163, LoadOneStorage, on the text of the file ([None]: it cannot be read).  The flag tells whether the error
    returned is nil: it never is. *)
Definition load_one_storage (s : mst) (name : string) (file : option string) : mst * bool :=
  match file with
  | None => (s, false)
  | Some b =>
      match objs_unmarshal b with
      | None => (s, false)
      | Some l =>
          let '(mkmst temp con acc con_d acc_d sth rev crv timers files) := s in
          (match kind_of name with
           | KObj OCon => mkmst temp (put_all con l) acc con_d acc_d sth rev crv timers files
           | KObj (OFull Acc) => mkmst temp con (put_all acc l) con_d acc_d sth rev crv timers files
           | KObj (OFull Sth) => mkmst temp con acc con_d acc_d (put_all sth l) rev crv timers files
           | KObj (OFull Rev) => mkmst temp con acc con_d acc_d sth (put_all rev l) crv timers files
           | _ => s
           end, false)
      end
  end.

(** What comes back from a web site: no answer, an answer without TLS, or one with the certificates of the peer (nil pointers are
    [None]). *)
Inductive webreply := NoReply | Plain | Tls (l : list (option cert)).
Inductive fetched := Got (c : option cert) | FetchError | FetchPanic.

(** client/client.go:48-81, FetchCertificate.  [Got None]: the zero certificate and no error. *)
Definition fetch_certificate (r : webreply) : fetched :=
  match r with
  | NoReply => FetchError
  | Plain => Got None
  | Tls l =>
      (* len(certificates) == 0 && certificates[0] != nil *)
      match l with
      | [] => FetchPanic
      | Some c :: _ => Got (Some c)
      | None :: _ => FetchPanic
      end
  end.
