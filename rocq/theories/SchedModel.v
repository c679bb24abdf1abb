(** Model of src/common/pf_scheduler.c (timer scheduler), pointer level.

    [cap] is PF_MAX_TIMEOUTS (pf_types.h:1060), any natural number.
    [e_gen] and [e_due] are ghost fields: the code never reads them.  They
    record which arming a slot belongs to and the true (unwrapped) time at
    which it is due. *)
From Coq Require Import List ZArith Arith Bool.
From Verif Require Import Base.
Import ListNotations.
Local Open Scope Z_scope.

(** pf_types.h:1102-1121 pf_scheduler_timeouts_t.  Strings are compared by
    pointer in the code, so a name is an abstract identifier. *)
Record entry := mkEntry {
  e_name : Z;
  e_inuse : bool;
  e_when : Z;
  e_next : nat;
  e_prev : nat;
  e_cb : Z;
  e_arg : Z;
  e_gen : nat;   (* ghost *)
  e_due : Z      (* ghost *)
}.

Definition set_next (e : entry) n :=
  mkEntry (e_name e) (e_inuse e) (e_when e) n (e_prev e) (e_cb e) (e_arg e) (e_gen e) (e_due e).
Definition set_prev (e : entry) p :=
  mkEntry (e_name e) (e_inuse e) (e_when e) (e_next e) p (e_cb e) (e_arg e) (e_gen e) (e_due e).
Definition set_inuse (e : entry) b :=
  mkEntry (e_name e) b (e_when e) (e_next e) (e_prev e) (e_cb e) (e_arg e) (e_gen e) (e_due e).

Definition mem := nat -> entry.

(** pf_scheduler.c:33-53 pf_scheduler_is_linked.  [None] is the failing loop
    guard CC_ASSERT at line 42. *)
Fixpoint is_linked_loop (fuel cap : nat) (m : mem) (first ix : nat) (ret : bool)
  : outcome bool :=
  if Nat.ltb first cap then
    match fuel with
    | O => AssertFail
    | S f => is_linked_loop f cap m (e_next (m first)) ix
               (if Nat.eqb first ix then true else ret)
    end
  else Ok ret.

Definition is_linked (cap : nat) (m : mem) (first ix : nat) : outcome bool :=
  if Nat.ltb ix cap then is_linked_loop cap cap m first ix false else Ok false.

(** pf_scheduler.c:55-97 pf_scheduler_unlink; returns the new table and the
    new head of the queue. *)
Definition unlink (cap : nat) (m : mem) (q ix : nat) : outcome (mem * nat) :=
  if Nat.ltb ix cap then
    do b <- is_linked cap m q ix;
    if b then
      let prev_ix := e_prev (m ix) in
      let next_ix := e_next (m ix) in
      let q1 := if Nat.eqb q ix then next_ix else q in
      let m1 := if Nat.ltb next_ix cap
                then upd m next_ix (set_prev (m next_ix) prev_ix) else m in
      let m2 := if Nat.ltb prev_ix cap
                then upd m1 prev_ix (set_next (m1 prev_ix) next_ix) else m1 in
      Ok (m2, q1)
    else Ok (m, q)     (* logs "is not in Q" *)
  else Ok (m, q).      (* logs "ix is invalid" *)

(** pf_scheduler.c:99-156 pf_scheduler_link_after. *)
Definition link_after (cap : nat) (m : mem) (q ix pos : nat) : outcome (mem * nat) :=
  if Nat.ltb ix cap then
    do b <- is_linked cap m q ix;
    if b then Ok (m, q)
    else if negb (Nat.ltb pos cap) then
      let m1 := upd m ix (set_next (set_prev (m ix) cap) q) in
      let m2 := if Nat.ltb q cap then upd m1 q (set_prev (m1 q) ix) else m1 in
      Ok (m2, ix)
    else if negb (Nat.ltb q cap) then
      Ok (upd m ix (set_next (set_prev (m ix) cap) cap), ix)
    else
      let next_ix := e_next (m pos) in
      let m1 := if Nat.ltb next_ix cap
                then upd m next_ix (set_prev (m next_ix) ix) else m in
      let m2 := upd m1 pos (set_next (m1 pos) ix) in
      Ok (upd m2 ix (set_next (set_prev (m2 ix) pos) next_ix), q)
  else Ok (m, q).

(** pf_scheduler.c:158-221 pf_scheduler_link_before. *)
Definition link_before (cap : nat) (m : mem) (q ix pos : nat) : outcome (mem * nat) :=
  if Nat.ltb ix cap then
    do b <- is_linked cap m q ix;
    if b then Ok (m, q)
    else if negb (Nat.ltb pos cap) then
      let m1 := upd m ix (set_next (set_prev (m ix) cap) q) in
      let m2 := if Nat.ltb q cap then upd m1 q (set_prev (m1 q) ix) else m1 in
      Ok (m2, ix)
    else if negb (Nat.ltb q cap) then
      Ok (upd m ix (set_next (set_prev (m ix) cap) cap), ix)
    else
      let prev_ix := e_prev (m pos) in
      let m1 := if Nat.ltb prev_ix cap
                then upd m prev_ix (set_next (m prev_ix) ix) else m in
      let m2 := upd m1 pos (set_prev (m1 pos) ix) in
      let m3 := upd m2 ix (set_prev (set_next (m2 ix) pos) prev_ix) in
      Ok (m3, if Nat.eqb q pos then ix else q)
  else Ok (m, q).

(** pf_scheduler.h:23 PF_SCHEDULER_MAX_DELAY_US. *)
Definition max_delay : Z := 100000000.

(** pf_scheduler.c:605-642 pf_scheduler_sanitize_delay, with its CC_ASSERTs. *)
Definition sanitize_delay (wanted cycle : Z) (half : bool) : outcome Z :=
  if cycle <=? 0 then AssertFail else
  let wanted := if max_delay <? wanted then 0 else wanted in
  let ticks :=
    if u32 (cycle + cycle / 2) <? wanted
    then u32 (wanted + cycle / 2) / cycle else 1 in
  if ticks <? 1 then AssertFail else
  if 2147483648 <=? ticks then AssertFail else
  let r := u32 (ticks * cycle) in
  Ok (if half then u32 (r - cycle / 2) else r).

(** pf_scheduler.c:360-370 the search loop of pf_scheduler_add.  Returns
    ix_prev.  The loop of the code has no guard; [None] when fuel [cap] is
    exhausted means that it runs for ever (modelled as [Ub]). *)
Fixpoint find_pos (fuel cap : nat) (m : mem) (w : Z) (ix_prev ix_this : nat)
  : outcome nat :=
  if Nat.ltb ix_this cap && (0 <? s32 (u32 (w - e_when (m ix_this)))) then
    match fuel with
    | O => Ub
    | S f => find_pos f cap m w ix_this (e_next (m ix_this))
    end
  else Ok ix_prev.

(** pf_scheduler.c:336-379: the second critical section of pf_scheduler_add. *)
Definition add_link (cap : nat) (m : mem) (first ix : nat) : outcome (mem * nat) :=
  if negb (Nat.ltb first cap) then link_before cap m first ix cap
  else if s32 (u32 (e_when (m ix) - e_when (m first))) <=? 0 then
    link_before cap m first ix first
  else
    do p <- find_pos cap cap m (e_when (m ix)) first (e_next (m first));
    link_after cap m first ix p.

(** Progress of a thread inside pf_scheduler_add. *)
Inductive stage :=
| Called     (* clock read and delay sanitised: lines 309-312 done *)
| Taken      (* slot taken from the free list: lines 314-318 done *)
| Filled.    (* slot filled in: lines 330-334 done *)

(** Shared state plus what is needed to describe concurrent executions.
    An [inflight] record is a thread inside pf_scheduler_add. *)
Record inflight := mkInflight {
  i_tid : nat;        (* the calling thread *)
  i_stage : stage;
  i_ix : nat;         (* slot taken from the free list (from [Taken] on) *)
  i_name : Z; i_cb : Z; i_arg : Z;
  i_when : Z;         (* now + delay, wrapped (stored at line 334) *)
  i_gen : nat; i_due : Z   (* ghost *)
}.

(** Observable effects. *)
Inductive event :=
| EvCall (gen : nat) (cb arg name delay at_ : Z)         (* add was called *)
| EvFail (gen : nat)                                     (* add returned -1 *)
| EvArmed (gen ix : nat)              (* add returned 0, timer_index = ix + 1 *)
| EvRemoved (gen : nat)                                  (* timer cancelled *)
| EvFired (gen : nat) (cb arg at_ : Z).                  (* callback called *)

Record sys := mkSys {
  y_mem : mem;
  y_first : nat;                 (* net->scheduler_timeout_first *)
  y_free : nat;                  (* net->scheduler_timeout_free *)
  y_cycle : Z;                   (* net->scheduler_tick_interval *)
  y_clk : Z;                     (* true time; the code sees it modulo 2^32 *)
  y_tick : option Z;             (* pf_current_time (unwrapped) of a running tick *)
  y_fly : list inflight;
  y_next_gen : nat;              (* ghost: next arming number *)
  y_log : list event             (* ghost: history, newest first *)
}.

(** pf_scheduler.c:270-297 pf_scheduler_init: the loop that links all entries
    into the free list, last index first. *)
Definition zero_entry : entry := mkEntry 0 false 0 0 0 0 0 0 0.

Fixpoint init_loop (cap n : nat) (m : mem) (q : nat) : outcome (mem * nat) :=
  match n with
  | O => Ok (m, q)
  | S k => do r <- link_before cap m q k q;
           init_loop cap k (fst r) (snd r)
  end.

Definition init (cap : nat) (cycle clk : Z) : outcome sys :=
  if cycle <=? 0 then AssertFail else
  do r <- init_loop cap cap (fun _ => zero_entry) cap;
  Ok (mkSys (fst r) cap (snd r) cycle clk None [] 0 []).

(** One atomic step.  Any number of threads may be inside pf_scheduler_add;
    callbacks are executed without the mutex, so what a callback does is just
    further steps. *)
Inductive label :=
| LTime (d : Z)                                   (* the clock advances *)
| LAddCall (tid : nat) (delay cb arg name : Z)    (* lines 309-312 *)
| LAddTake (tid : nat)                            (* lines 314-328 *)
| LAddFill (tid : nat)                            (* lines 330-334 *)
| LAddLink (tid : nat)                            (* lines 336-383 *)
| LRemove (name : Z) (idx : Z) (gen : nat)        (* lines 386-442; gen is ghost *)
| LTickStart                                      (* line 449: read the clock *)
| LTickPop                                        (* lines 454-477: one iteration *)
| LTickEnd.                                       (* loop condition false *)

Definition find_fly (tid : nat) (l : list inflight) : option inflight :=
  find (fun f => Nat.eqb (i_tid f) tid) l.
Definition drop_fly (tid : nat) (l : list inflight) : list inflight :=
  filter (fun f => negb (Nat.eqb (i_tid f) tid)) l.

Definition set_stage (f : inflight) (st : stage) (ix : nat) : inflight :=
  mkInflight (i_tid f) st ix (i_name f) (i_cb f) (i_arg f) (i_when f) (i_gen f) (i_due f).

Definition with_fly (s : sys) (l : list inflight) : sys :=
  mkSys (y_mem s) (y_first s) (y_free s) (y_cycle s) (y_clk s) (y_tick s) l
    (y_next_gen s) (y_log s).

(** pf_scheduler.c:309-312: read the clock, sanitise the delay. *)
Definition add_call (s : sys) (tid : nat) (delay cb arg name : Z) : outcome sys :=
  match find_fly tid (y_fly s) with
  | Some _ => Ok s    (* the thread is already inside the function *)
  | None =>
    do d <- sanitize_delay delay (y_cycle s) true;
    Ok (mkSys (y_mem s) (y_first s) (y_free s) (y_cycle s) (y_clk s) (y_tick s)
          (mkInflight tid Called 0 name cb arg (u32 (u32 (y_clk s) + d))
             (y_next_gen s) (y_clk s + d) :: y_fly s)
          (S (y_next_gen s))
          (EvCall (y_next_gen s) cb arg name delay (y_clk s) :: y_log s))
  end.

(** pf_scheduler.c:314-328: take a slot from the free list. *)
Definition add_take (cap : nat) (s : sys) (tid : nat) : outcome sys :=
  match find_fly tid (y_fly s) with
  | Some f =>
    match i_stage f with
    | Called =>
      let ix := y_free s in
      do r <- unlink cap (y_mem s) (y_free s) ix;
      if negb (Nat.ltb ix cap) then
        Ok (mkSys (fst r) (y_first s) (snd r) (y_cycle s) (y_clk s) (y_tick s)
              (drop_fly tid (y_fly s)) (y_next_gen s) (EvFail (i_gen f) :: y_log s))
      else
        Ok (mkSys (fst r) (y_first s) (snd r) (y_cycle s) (y_clk s) (y_tick s)
              (set_stage f Taken ix :: drop_fly tid (y_fly s))
              (y_next_gen s) (y_log s))
    | _ => Ok s
    end
  | None => Ok s
  end.

(** pf_scheduler.c:330-334: fill in the slot, without the mutex. *)
Definition add_fill (s : sys) (tid : nat) : outcome sys :=
  match find_fly tid (y_fly s) with
  | Some f =>
    match i_stage f with
    | Taken =>
      let e := y_mem s (i_ix f) in
      let m := upd (y_mem s) (i_ix f)
                 (mkEntry (i_name f) true (i_when f) (e_next e) (e_prev e)
                    (i_cb f) (i_arg f) (i_gen f) (i_due f)) in
      Ok (mkSys m (y_first s) (y_free s) (y_cycle s) (y_clk s) (y_tick s)
            (set_stage f Filled (i_ix f) :: drop_fly tid (y_fly s))
            (y_next_gen s) (y_log s))
    | _ => Ok s
    end
  | None => Ok s
  end.

(** pf_scheduler.c:336-383: link the slot into the busy list, return 0. *)
Definition add_finish (cap : nat) (s : sys) (tid : nat) : outcome sys :=
  match find_fly tid (y_fly s) with
  | Some f =>
    match i_stage f with
    | Filled =>
      do r <- add_link cap (y_mem s) (y_first s) (i_ix f);
      Ok (mkSys (fst r) (snd r) (y_free s) (y_cycle s) (y_clk s) (y_tick s)
            (drop_fly tid (y_fly s)) (y_next_gen s)
            (EvArmed (i_gen f) (i_ix f) :: y_log s))
    | _ => Ok s
    end
  | None => Ok s
  end.

(** pf_scheduler.c:386-442 pf_scheduler_remove.  [idx] is
    handle->timer_index, [name] is handle->name. *)
Definition remove (cap : nat) (s : sys) (name idx : Z) : outcome sys :=
  if (idx =? 0) || (Z.of_nat cap <? idx) then Ok s
  else
    let ix := Z.to_nat (u16 (idx - 1)) in
    let e := y_mem s ix in
    if negb (e_name e =? name) then Ok s
    else if negb (e_inuse e) then Ok s
    else
      do r <- unlink cap (y_mem s) (y_first s) ix;
      let m1 := upd (fst r) ix (set_inuse (fst r ix) false) in
      do r2 <- link_before cap m1 (y_free s) ix (y_free s);
      Ok (mkSys (fst r2) (snd r) (snd r2) (y_cycle s) (y_clk s) (y_tick s)
            (y_fly s) (y_next_gen s) (EvRemoved (e_gen e) :: y_log s)).

(** pf_scheduler.c:454-457: condition of the loop of pf_scheduler_tick. *)
Definition tick_cond (cap : nat) (s : sys) (now : Z) : bool :=
  Nat.ltb (y_first s) cap &&
  (0 <=? s32 (u32 (u32 now - e_when (y_mem s (y_first s))))).

(** pf_scheduler.c:458-477: body of the loop of pf_scheduler_tick, up to and
    including the call of the callback. *)
Definition tick_pop (cap : nat) (s : sys) : outcome sys :=
  match y_tick s with
  | None => Ok s
  | Some now =>
    if tick_cond cap s now then
      let ix := y_first s in
      do r <- unlink cap (y_mem s) (y_first s) ix;
      let e := fst r ix in
      let m1 := upd (fst r) ix (set_inuse e false) in
      do r2 <- link_before cap m1 (y_free s) ix (y_free s);
      Ok (mkSys (fst r2) (snd r) (snd r2) (y_cycle s) (y_clk s) (y_tick s)
            (y_fly s) (y_next_gen s)
            (EvFired (e_gen e) (e_cb e) (e_arg e) (y_clk s) :: y_log s))
    else Ok s
  end.

Definition set_tick (s : sys) (t : option Z) : sys :=
  mkSys (y_mem s) (y_first s) (y_free s) (y_cycle s) (y_clk s) t (y_fly s)
    (y_next_gen s) (y_log s).

Definition step (cap : nat) (s : sys) (l : label) : outcome sys :=
  match l with
  | LTime d => Ok (mkSys (y_mem s) (y_first s) (y_free s) (y_cycle s)
                     (y_clk s + Z.max 0 d) (y_tick s) (y_fly s)
                     (y_next_gen s) (y_log s))
  | LAddCall tid d cb arg name => add_call s tid d cb arg name
  | LAddTake tid => add_take cap s tid
  | LAddFill tid => add_fill s tid
  | LAddLink tid => add_finish cap s tid
  | LRemove name idx _ => remove cap s name idx
  | LTickStart =>
      match y_tick s with
      | None => Ok (set_tick s (Some (y_clk s)))
      | Some _ => Ok s          (* a tick is already running *)
      end
  | LTickPop => tick_pop cap s
  | LTickEnd =>
      match y_tick s with
      | Some now => if tick_cond cap s now then Ok s else Ok (set_tick s None)
      | None => Ok s
      end
  end.

Fixpoint run (cap : nat) (s : sys) (ls : list label) : outcome sys :=
  match ls with
  | [] => Ok s
  | l :: ls' => do s' <- step cap s l; run cap s' ls'
  end.
