(** When things happen: the start of the processes and their period timers.

    Times are readings of the clock of one machine, in milliseconds since some midnight (UTC), so the minute changes at
    multiples of 60000.  Durations do not overflow. *)
From Verif Require Import Bytes.
From Coq Require Import QArith Qround.
Open Scope Z_scope.

(** Characters 14-15 and 17-18 of time.Now().UTC().Format(time.RFC3339), read as numbers: util/helpers.go:103-118 and
    Logger/server.go:182-198. *)
Definition minute_of (t : Z) : Z := (t / 60000) mod 60.
Definition second_of (t : Z) : Z := (t / 1000) mod 60.

(** time.Sleep for [d] milliseconds beginning at [t]: returns at once if [d] is not positive. *)
Definition after_sleep (t d : Z) : Z := t + Z.max 0 d.

(** util/helpers.go:121-129, Getwaitingtime, in seconds. *)
Definition waiting_time (mmd t : Z) : Z := mmd - second_of t.

(** gossiper/gossiper_server.go:578-597, StartGossiperServer, called at [t]: when PeriodicTasks is called first. *)
Definition gossiper_start (mmd t : Z) : Z := after_sleep t (1000 * waiting_time mmd t).

(** monitor/monitor-server.go:35-56, StartMonitorServer; [mode]: c.Mode, [drift]: c.Clockdrift_miliseconds. *)
Definition monitor_start (mode mmd drift t : Z) : Z :=
  after_sleep (if Z.eqb mode 0 then after_sleep t (1000 * waiting_time mmd t) else t) drift.

(** Logger/server.go:257-284, StartLogger. *)
Definition logger_start (t : Z) : Z :=
  if Z.eqb (second_of t) 0 then t else after_sleep t (1000 * (60 - second_of t)).

(** CA/server.go:444-468, StartCA: one second later. *)
Definition ca_start (t : Z) : Z :=
  if Z.eqb (second_of t) 0 then t else after_sleep t (1000 * (60 - second_of t + 1)).

(** The [k]-th call of PeriodicTasks (gossiper_server.go:562-569, monitor.go:441-448) or PeriodicTask
    (Logger/server.go:201-205, CA/server.go:337-341): each call first asks for the next one, MMD seconds later.
    [late k] is the delay, in milliseconds, with which the timer set by call [k] fires and the goroutine gets to its
    first line. *)
Fixpoint run_time (start mmd : Z) (late : nat -> Z) (k : nat) : Z :=
  match k with
  | O => start
  | S k => run_time start mmd late k + Z.max 0 (1000 * mmd) + late k
  end.

(** When the function f1 of the [k]-th call is run (gossiper_server.go:571-575, monitor.go:460-469,
    Logger/server.go:207-253, CA/server.go:375-438); [late'] is the delay of its timer, and, for
    loggers and CAs, of the period's work before the timer is set. *)
Definition close_time (start mmd : Z) (late late' : nat -> Z) (k : nat) : Z :=
  run_time start mmd late k + Z.max 0 (1000 * (mmd - 20)) + late' k.

(** When the [k]-th round of queries of a monitor starts: monitor/monitor.go:450-459; [maxdrift]: c.Maxdrift_miliseconds. *)
Definition query_time (start mmd maxdrift : Z) (late late' : nat -> Z) (k : nat) : Z :=
  if Z.ltb 0 maxdrift then run_time start mmd late k + maxdrift + late' k else run_time start mmd late k.

(** ** Random delays *)

(** Go's conversion of a floating point number to int: towards zero. *)
Definition trunc (q : Q) : Z := Z.quot (Qnum q) (Zpos (Qden q)).

(** util/helpers.go:140-152, GetRandomLatency, for the values [draws] that rand.ExpFloat64 gives one after another; [None]: it is
    still looping after all of them.  Computed with rational numbers, not float64. *)
Fixpoint random_latency (lo hi : Z) (draws : list Q) : option Z :=
  match draws with
  | [] => None
  | e :: r =>
      let latency := trunc (e * inject_Z (hi - lo) + inject_Z lo) in
      if Z.leb lo latency && Z.ltb latency hi then Some latency else random_latency lo hi r
  end.

(** gossiper/types.go:118-120, ComputeRandomlatency, in milliseconds, with [r n] the result of rand.Intn(n); [None]: rand.Intn panics. *)
Definition compute_random_latency (lo hi : Z) (r : Z -> Z) : option Z :=
  if Z.ltb 0 (hi - lo) then Some (lo + r (hi - lo)) else None.
