(** Vocabulary for statements about the clock. *)
From Verif Require Import Bytes Types Crypto Cert CertPool Logger Revocation CA.
From Coq Require Import Sorted.
Open Scope Z_scope.

(** Minutes counted from midnight, without starting again after an hour. *)
Definition minute_no (t : Z) : Z := t / 60000.

(** The delays are not negative. *)
Definition delays (late : nat -> Z) : Prop := forall k, 0 <= late k.

(** The delays of the first [k] timers together. *)
Definition total (late : nat -> Z) (k : nat) : Z := foldr Z.add 0 (map late (seq 0 k)).

(** A history [l] with the time of each event, up to [now], in which periods end at the times [ends k]; [ending e] is the minute
    read off the clock if [e] ends a period. *)
Record timed {A} (ending : A -> option nat) (ends : nat -> Z) (now : Z) (l : list (Z * A)) : Prop := mktimed {
  (** In order of time, nothing later than [now]. *)
  ti_sorted : StronglySorted Z.le (map fst l);
  ti_past : forall t e, (t, e) ∈ l -> t <= now;
  (** Every end of a period that is due has happened, once, and there are no others. *)
  ti_ends : forall k, ends k <= now -> exists e m, (ends k, e) ∈ l /\ ending e = Some m;
  ti_once : forall i j t e e' m m', l !! i = Some (t, e) -> l !! j = Some (t, e') -> ending e = Some m -> ending e' = Some m' -> i = j;
  ti_only : forall t e m, (t, e) ∈ l -> ending e = Some m -> exists k, t = ends k;
  (** The minute is right. *)
  ti_clock : forall t e m, (t, e) ∈ l -> ending e = Some m -> Z.of_nat m = minute_no t mod 60
}.

Definition logger_ending (e : levent) : option nat := match e with Publish t _ _ => Some (n_minute t) | _ => None end.
Definition ca_ending (e : caevent) : option nat := match e with CPeriod _ m => Some m | _ => None end.

(** The first minute of a logger or CA started at [t]: this one, if it is at second 0, or the next. *)
Definition first_minute (t : Z) : Z := if Z.ltb (t mod 60000) 1000 then minute_no t else minute_no t + 1.
