(** Small definitions for Props_Details.v. *)
From Verif Require Import Bytes Json Types Monitor.
Open Scope string_scope.

(** The parts of an object that the announcement of its payload should depend on. *)
Definition announced (g : gobj) : list string := [g_s0 g; g_signer g; g_period g; g_type g; g_p0 g; g_p1 g; g_p2 g].
(** They differ in exactly one part. *)
Definition one_change (o g : gobj) : Prop := exists a b u v, announced o = (a ++ u :: b)%list /\ announced g = (a ++ v :: b)%list /\ u <> v.

(** The text of an update in which some elements of the lists are null. *)
Definition with_nulls (a b c d : list (option gobj)) (e f : string) : string :=
  let arr l := JArr (map (λ o, match o with Some g => gobj_json g | None => JNull end) l) in
  print_json (JObj [("STHs", arr a); ("REVs", arr b); ("POM_CONs", arr c); ("POM_ACCs", arr d); ("MonitorID", JStr e); ("Period", JStr f)]).
Definition or_empty (l : list (option gobj)) : list gobj := map (default zero_obj) l.
