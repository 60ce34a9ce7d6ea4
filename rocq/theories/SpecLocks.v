(** Vocabulary for statements about goroutines that share maps. *)
From Verif Require Import Bytes Locks.
Open Scope string_scope.

(** Goroutine [i] is about to do [o]. *)
Definition about_to (c : proc) (i : nat) (o : op) : Prop := exists r, pr_threads c !! i = Some (o :: r).

(** One goroutine is about to change the map [m] while another one is about to read or change it, so that the two accesses can
    overlap.  The Go runtime ends the process when it notices that ("concurrent map writes", "concurrent map read and map write",
    "concurrent map iteration and map write"). *)
Definition collision (c : proc) (m : string) : Prop :=
  exists i j, i <> j /\ about_to c i (Write m) /\ (about_to c j (Read m) \/ about_to c j (Write m)).

(** Goroutine [i] still has to do something, but can not go on now. *)
Definition unfinished (c : proc) (i : nat) : Prop := exists o, about_to c i o.
Definition blocked (c : proc) (i : nat) : Prop := exists o, about_to c i o /\ exec (pr_locks c) o = Blocks.

(** A deadlock: there is work, and nobody can go on. *)
Definition deadlock (c : proc) : Prop := (exists i, unfinished c i) /\ forall i, unfinished c i -> blocked c i.

(** What a goroutine with the remaining steps [ops] holds: it releases the lock before it takes it (again). *)
Fixpoint holds_write (k : string) (ops : list op) : bool :=
  match ops with
  | [] => false
  | Unlock k' :: r => String.eqb k k' || holds_write k r
  | Lock k' :: r | Drain k' :: r => negb (String.eqb k k') && holds_write k r
  | _ :: r => holds_write k r
  end.
Fixpoint holds_read (k : string) (ops : list op) : bool :=
  match ops with
  | [] => false
  | RUnlock k' :: r => String.eqb k k' || holds_read k r
  | RLock k' :: r => negb (String.eqb k k') && holds_read k r
  | _ :: r => holds_read k r
  end.

(** All goroutines of the history [l] are of the kind [Q]. *)
Definition only (Q : list op -> Prop) (l : list lev) : Prop := forall ops, Start ops ∈ l -> Q ops.

(** All goroutines are through, and the events [l] are steps of goroutines that were started before. *)
Definition all_done (c : proc) : Prop := forall ops, ops ∈ pr_threads c -> ops = [].
Definition only_steps (l : list lev) : Prop := forall e, e ∈ l -> exists i, e = Go i.
