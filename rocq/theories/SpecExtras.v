(** Vocabulary for Props_Extras.v. *)
From Verif Require Import Bytes Types Verify.
Open Scope string_scope.

(** The last object of the list with identifier [i]. *)
Definition last_with (i : gid) (l : list gobj) : option gobj := find (λ g, bool_decide (get_id g = i)) (rev l).

(** The kinds of objects that can be loaded. *)
Definition loadable : list string := [CON_INIT; ACC_FULL; STH_FULL; REV_FULL].
