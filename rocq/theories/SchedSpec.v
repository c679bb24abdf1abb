(** Specification vocabulary for the timer scheduler, in terms of the history
    of calls and callbacks only (no reference to the timer table). *)
From Coq Require Import List ZArith Arith Bool.
From Verif Require Import Base SchedModel.
Import ListNotations.
Local Open Scope Z_scope.

(** Arming number [g] was requested by a call of pf_scheduler_add at time [t]
    with (unsanitised) delay [delay]. *)
Definition was_called (log : list event) g cb arg name delay t : Prop :=
  In (EvCall g cb arg name delay t) log.

(** The arming is over: the call failed, the timer was cancelled, or fired. *)
Definition failed (log : list event) (g : nat) : Prop := In (EvFail g) log.
Definition cancelled (log : list event) (g : nat) : Prop := In (EvRemoved g) log.
Definition fired (log : list event) (g : nat) : Prop :=
  exists cb arg t, In (EvFired g cb arg t) log.
Definition over (log : list event) (g : nat) : Prop :=
  failed log g \/ cancelled log g \/ fired log g.

(** The timer is waiting: add has returned 0 and it is not over. *)
Definition armed (log : list event) (g : nat) : Prop :=
  (exists ix, In (EvArmed g ix) log) /\ ~ over log g.

(** The time at which arming [g] is due: time of the call plus sanitised delay. *)
Definition due_at (cycle : Z) (log : list event) (g : nat) (d : Z) : Prop :=
  exists cb arg name delay t sd,
    was_called log g cb arg name delay t /\
    sanitize_delay delay cycle true = Ok sd /\ d = t + sd.

(** Longest tolerated lateness: how long a due timer (or a caller inside
    pf_scheduler_add, or a tick) may be left unserved so that 32-bit clock
    comparisons still work. *)
Definition max_lag (cycle : Z) : Z := 2147483647 - max_delay - cycle.

Definition timely (s : sys) : Prop :=
  (forall g d, due_at (y_cycle s) (y_log s) g d -> ~ over (y_log s) g ->
     y_clk s <= d + max_lag (y_cycle s)) /\
  (forall t0, y_tick s = Some t0 -> y_clk s <= t0 + max_lag (y_cycle s)).

(** Handle discipline.  A handle is what pf_scheduler_add stored: the name
    given in the call and the slot number plus one.  It may be passed to
    pf_scheduler_remove while its timer is armed, or when its slot is not in
    use, or with an index that was never handed out. *)
Definition own_handle (cap : nat) (s : sys) (name idx : Z) (g : nat) : Prop :=
  (exists ix cb arg delay t,
      In (EvArmed g ix) (y_log s) /\ armed (y_log s) g /\
      was_called (y_log s) g cb arg name delay t /\ idx = Z.of_nat ix + 1)
  \/ idx = 0 \/ Z.of_nat cap < idx
  \/ e_inuse (y_mem s (Z.to_nat (idx - 1))) = false.

Definition allowed (cap : nat) (s : sys) (l : label) : Prop :=
  timely s /\
  match l with
  | LAddCall _ delay _ _ _ => 0 <= delay < 4294967296
  | LRemove name idx g => 0 <= idx < 4294967296 /\ own_handle cap s name idx g
  | _ => True
  end.

(** Reachable states: any number of threads, any order of steps. *)
Inductive reach (cap : nat) (cycle clk0 : Z) : sys -> Prop :=
| reach_init : forall s, init cap cycle clk0 = Ok s -> reach cap cycle clk0 s
| reach_step : forall s l s', reach cap cycle clk0 s -> allowed cap s l ->
    step cap s l = Ok s' -> reach cap cycle clk0 s'.
