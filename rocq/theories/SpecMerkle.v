(** What is said about Merkle trees: which strings a computation hashes, so that
    a collision can be pointed at (for a hash with bounded
    output, that some collision exists is no news). *)
From Verif Require Import Bytes Merkle.
Open Scope string_scope.

Section spec.
Context (h : string -> string).

(** Two different strings, one hashed in each of two computations, with the same
    hash. *)
Definition collision_in (A B : list string) : Prop := exists a b, a ∈ A /\ b ∈ B /\ a <> b /\ h a = h b.

(** The strings hashed to build a tree. *)
Fixpoint pair_inputs (l : list string) : list string :=
  match l with
  | [] => []
  | [a] => [a ++ a]
  | a :: b :: r => (a ++ b) :: pair_inputs r
  end.
Fixpoint level_inputs (d : nat) (l : list string) : list string :=
  match d with O => [] | S d => (pair_inputs l ++ level_inputs d (map h (pair_inputs l)))%list end.
Definition tree_inputs (blocks : list string) : list string :=
  (blocks ++ level_inputs (depth (length blocks)) (map h blocks))%list.

(** The strings hashed to check a proof. *)
Fixpoint climb_inputs (r : string) (sibs : list string) (path : N) : list string :=
  match sibs with
  | [] => []
  | s :: sibs => let m := if N.odd path then r ++ s else s ++ r in m :: climb_inputs (h m) sibs (N.div2 path)
  end.
Definition proof_inputs (x : string) (p : proof) : list string :=
  x :: climb_inputs (h x) (pf_siblings p) (pf_path p).

(** The string has a hash value at one end. *)
Definition node_like (u : string) : Prop := exists a s, u = h a ++ s \/ u = s ++ h a.
End spec.
