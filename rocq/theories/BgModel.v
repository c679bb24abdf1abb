(** Model of the background worker: src/common/pf_bg_worker.c.  os_event_set,
    os_event_clr and os_event_wait belong to the OS abstraction layer, which is not
    in the repository; they are modelled as atomic operations on a set of flags,
    with os_event_wait blocked until one of the flags in the mask is set and
    returning the flags without clearing them. *)
From Coq Require Import List ZArith Arith Bool.
From Verif Require Import Base.
Import ListNotations.

(** pf_bg_worker.h:26-39 pf_bg_job_t. *)
Inductive job := JPorts | JAse | JIm | JPdport.

Definition job_eqb (a b : job) : bool :=
  match a, b with
  | JPorts, JPorts | JAse, JAse | JIm, JIm | JPdport, JPdport => true
  | _, _ => false
  end.

(** pf_bg_worker.c:31-36: the event bits. *)
Definition job_bit (j : job) : Z :=
  match j with JPorts => 0 | JAse => 1 | JIm => 2 | JPdport => 3 end.

(** pf_bg_worker.h:26-39: job numbers as the API takes them. *)
Definition job_of_id (id : Z) : option job :=
  if (id =? 0)%Z then Some JPorts else if (id =? 1)%Z then Some JAse
  else if (id =? 2)%Z then Some JIm else if (id =? 3)%Z then Some JPdport else None.

(** OSAL event flags. *)
Definition ev_set (e : Z) (bit : Z) : Z := Z.lor e (Z.shiftl 1 bit).
Definition ev_clr (e : Z) (bit : Z) : Z := Z.ldiff e (Z.shiftl 1 bit).

(** pf_bg_worker.c:53-84 pf_bg_worker_start_job (net not NULL). *)
Definition start_job (events : Z) (id : Z) : Z * Z :=
  match job_of_id id with
  | Some j => (0%Z, ev_set events (job_bit j))
  | None => ((-1)%Z, events)
  end.

(** Position of the worker thread in bg_worker_task: in os_event_wait, before the
    test of the [i]-th flag, or between clearing the [i]-th flag and calling the
    job function. *)
Inductive wpc := WWait | WCheck (flags : Z) (i : nat) | WExec (flags : Z) (i : nat).

(** pf_bg_worker.c:105-130: order of the tests. *)
Definition job_at (i : nat) : option job :=
  match i with 0 => Some JAse | 1 => Some JIm | 2 => Some JPdport | 3 => Some JPorts | _ => None end.

Definition wmask : Z := 15.

Record bg := mkBg { g_events : Z; g_pc : wpc }.

(** pf_bg_worker.c:91-132 bg_worker_task: one step of the worker; the second
    component is the job function called in this step.  None: blocked. *)
Definition wstep (s : bg) : option (bg * option job) :=
  match g_pc s with
  | WWait => if (Z.land (g_events s) wmask =? 0)%Z then None
             else Some (mkBg (g_events s) (WCheck (g_events s) 0), None)
  | WCheck flags i =>
    match job_at i with
    | None => Some (mkBg (g_events s) WWait, None)
    | Some j => if Z.testbit flags (job_bit j)
                then Some (mkBg (ev_clr (g_events s) (job_bit j)) (WExec flags i), None)
                else Some (mkBg (g_events s) (WCheck flags (S i)), None)
    end
  | WExec flags i => Some (mkBg (g_events s) (WCheck flags (S i)), job_at i)
  end.

Definition bg0 : bg := mkBg 0 WWait.

(** Interleavings: requests from any thread, steps of the worker. *)
Inductive bev := BReq (id : Z) | BWork.

(** A run; the trace says for each event which job was requested or executed.  A
    worker step of a blocked worker changes nothing. *)
Inductive btr := TReq (j : job) | TBad | TExec (j : job) | TTau | TBlocked.

Definition bstep (s : bg) (e : bev) : bg * btr :=
  match e with
  | BReq id =>
    (mkBg (snd (start_job (g_events s) id)) (g_pc s),
     match job_of_id id with Some j => TReq j | None => TBad end)
  | BWork =>
    match wstep s with
    | None => (s, TBlocked)
    | Some (s', Some j) => (s', TExec j)
    | Some (s', None) => (s', TTau)
    end
  end.

Fixpoint brun (s : bg) (l : list bev) : bg * list btr :=
  match l with
  | [] => (s, [])
  | e :: r => let '(s1, t) := bstep s e in let '(s2, ts) := brun s1 r in (s2, t :: ts)
  end.

(** ** What the jobs store.

    The content of a shared object at each instant: another thread replaces it as
    a whole under its mutex.  Reading [n] bytes without the mutex sees byte [i] at
    instant [t + i]; reading under the mutex sees one instant. *)
Definition shared := nat -> list Z.
Fixpoint read_unlocked (o : shared) (t : nat) (i n : nat) : list Z :=
  match n with 0 => [] | S k => nth i (o t) 0%Z :: read_unlocked o (S t) (S i) k end.
Definition read_locked (o : shared) (t : nat) : list Z := o t.

(** pf_cmina.c:82-114 pf_cmina_save_ase: the copy made under the mutex is only
    used for logging, the object given to pf_file_save_if_modified is the shared
    one.  [t] is the instant at which the platform starts to write it. *)
Definition save_ase_bytes (o : shared) (t : nat) (size : nat) : list Z := read_unlocked o t 0 size.

(** pf_fspm.c:323-344 pf_fspm_save_im and pf_pdport.c:171-190 pf_pdport_save: a
    copy made under the mutex at instant [t] is then stored. *)
Definition save_im_bytes (o : shared) (t : nat) (size : nat) : list Z :=
  let copy := read_locked o t in
  read_unlocked (fun _ => copy) (S t) 0 size.
