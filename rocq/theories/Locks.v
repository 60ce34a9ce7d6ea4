(** Goroutines that use locks and maps.

    gossiper/*.go, monitor/*.go, CA/server.go and Logger/server.go keep their state in Go maps that the goroutines of the
    HTTP server and of time.AfterFunc share, and protect (some of) them by sync.RWMutex and sync.Mutex.  Here only this use is
    modelled: which locks a function takes and which maps it looks at or changes, in which order.  Values are modelled elsewhere
    (Gossiper.v, Monitor.v, CA.v, Logger.v), where a critical section is one step. *)
From Verif Require Import Bytes.
Open Scope string_scope.

(** One step of a goroutine: a call of sync.RWMutex (a sync.Mutex is one on which only Lock and Unlock are called), reading a map
    (an index expression or a step of a range loop), changing one (assignment to an element, delete).  [Drain] is the second half of
    [Lock]: waiting until the readers have left.  [Replace ks] is the assignment of a new value to the struct that contains the locks [ks]
    (gossiper/Interface.go:632, 636).  len(m) only reads a counter, which the runtime does not check, and is left out, as are
    the slices and numbers the goroutines share. *)
Inductive op :=
| Lock (k : string) | Unlock (k : string) | RLock (k : string) | RUnlock (k : string)
| Drain (k : string)
| Read (m : string) | Write (m : string)
| Replace (ks : list string).

(** sync.RWMutex: whether a goroutine holds it for writing or has announced that it wants to, and the number of readers.  Which goroutines these are is
    not recorded. *)
Record rw : Type := mkrw { rw_writer : bool; rw_readers : nat }.
Definition free_lock : rw := mkrw false 0.
Definition lock_at (L : gmap string rw) (k : string) : rw := default free_lock (L !! k).

(** A call blocks, ends the process (fatal error, which recover does not catch), or goes on with the locks changed and steps put before the rest. *)
Inductive outcome := Blocks | Dies | Goes (L : gmap string rw) (more : list op).

(** sync.RWMutex: Lock waits for the other writers, announces itself, which keeps new readers out, and then waits for the readers.  Unlock of a mutex that
    is not locked and RUnlock without readers are fatal errors. *)
Definition exec (L : gmap string rw) (o : op) : outcome :=
  match o with
  | Lock k => if rw_writer (lock_at L k) then Blocks else Goes (<[k := mkrw true (rw_readers (lock_at L k))]> L) [Drain k]
  | Drain k => match rw_readers (lock_at L k) with 0 => Goes L [] | S _ => Blocks end
  | Unlock k => if rw_writer (lock_at L k) then Goes (<[k := mkrw false (rw_readers (lock_at L k))]> L) [] else Dies
  | RLock k => if rw_writer (lock_at L k) then Blocks else Goes (<[k := mkrw false (S (rw_readers (lock_at L k)))]> L) []
  | RUnlock k =>
      match rw_readers (lock_at L k) with
      | 0 => Dies
      | S n => Goes (<[k := mkrw (rw_writer (lock_at L k)) n]> L) []
      end
  | Read _ | Write _ => Goes L []
  | Replace ks => Goes (foldr (λ k L, <[k := free_lock]> L) L ks) []
  end.

(** The locks, what each goroutine still has to do, and whether the process has died. *)
Record proc : Type := mkproc { pr_locks : gmap string rw; pr_threads : list (list op); pr_dead : bool }.

(** The scheduler lets goroutine [i] do a step, or a request or timer starts a goroutine. *)
Inductive lev := Go (i : nat) | Start (ops : list op).

Definition lstep (c : proc) (e : lev) : proc :=
  if pr_dead c then c else
  match e with
  | Start ops => mkproc (pr_locks c) (pr_threads c ++ [ops])%list false
  | Go i =>
      match pr_threads c !! i with
      | Some (o :: r) =>
          match exec (pr_locks c) o with
          | Blocks => c
          | Dies => mkproc (pr_locks c) (pr_threads c) true
          | Goes L more => mkproc L (<[i := (more ++ r)%list]> (pr_threads c)) false
          end
      | _ => c
      end
  end.

(** A process that has just been started, and after the events [l]. *)
Definition new_proc : proc := mkproc ∅ [] false.
Definition lrun (l : list lev) : proc := fold_left lstep l new_proc.
