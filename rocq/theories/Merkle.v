(** crypto/MerkleTree.go and the library github.com/txaty/go-merkletree
    v0.1.15 it calls with a nil configuration (SHA-256, leaves hashed,
    siblings in tree order, odd levels completed with a copy of their last
    node).  The library's source is not part of /repo: its behaviour is
    taken from its published source. *)
From Verif Require Import Bytes.
Open Scope string_scope.

(** merkletree.Proof.  Path is a uint32 in Go: trees with more than 2^32
    leaves are not modelled faithfully. *)
Record proof : Type := mkproof { pf_siblings : list string; pf_path : N }.

(** merkletree.MerkleTree, the fields in use. *)
Record mtree : Type := mktree { mt_root : string; mt_proofs : list proof }.

Section merkle.
Context (h : string -> string).

(** One level up: hash pairs of neighbours; a last node without neighbour
    is paired with itself. *)
Fixpoint pairup (l : list string) : list string :=
  match l with
  | [] => []
  | [a] => [h (a ++ a)]
  | a :: b :: r => h (a ++ b) :: pairup r
  end.

Fixpoint level (d : nat) (l : list string) : list string :=
  match d with O => l | S d => level d (pairup l) end.

(** bits.Len(uint(n-1)) levels above n >= 2 leaves. *)
Definition depth (n : nat) : nat := Nat.log2_up n.

(** The neighbour of position [i]. *)
Definition sibling (l : list string) (i : nat) : string :=
  if Nat.even i then match l !! S i with Some b => b | None => default "" (l !! i) end
  else default "" (l !! pred i).

(** Siblings from the leaf upwards; bit [k] of the path is set if the node
    at height [k] is a left child. *)
Fixpoint proof_at (d : nat) (l : list string) (i : nat) : proof :=
  match d with
  | O => mkproof [] 0
  | S d =>
      let p := proof_at d (pairup l) (Nat.div2 i) in
      mkproof (sibling l i :: pf_siblings p) (N.b2n (Nat.even i) + 2 * pf_path p)
  end.

(** merkletree.New(nil, blocks) (MerkleTree.go:55-58): an error for less than
    two blocks. *)
Definition new_tree (blocks : list string) : option mtree :=
  if Nat.leb (length blocks) 1 then None
  else
    let leaves := map h blocks in
    let d := depth (length blocks) in
    Some (mktree (default "" (head (level d leaves)))
                 (map (proof_at d leaves) (seq 0 (length blocks)))).

(** The loop of merkletree.Verify. *)
Fixpoint climb (r : string) (sibs : list string) (path : N) : string :=
  match sibs with
  | [] => r
  | s :: sibs => climb (if N.odd path then h (r ++ s) else h (s ++ r)) sibs (N.div2 path)
  end.

(** merkletree.Verify(block, proof, root, nil) (MerkleTree.go:69-72); a nil
    proof is an error. *)
Definition verify_proof (data : string) (p : option proof) (root : string) : bool :=
  match p with
  | None => false
  | Some p => String.eqb (climb (h data) (pf_siblings p) (pf_path p)) root
  end.
End merkle.
