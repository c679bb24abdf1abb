(** Model of connection management: the state machines CMDEV, CMSU, CMIO,
    CMWRR, CMSM and CMPBE of every connection (AR), the table of connections
    and the ownership of sub-slots.

    Source: /repo/src/device/pf_cmdev.c, pf_cmsu.c, pf_cmio.c, pf_cmwrr.c,
    pf_cmsm.c, pf_cmpbe.c and the AR handling of pf_cmrpc.c.

    Simplifications that hold for the whole file:
    - Answers of code that is modelled elsewhere or is supplied by the
      application (the checks on a connect request, the user call-backs, the
      creation of a consumer or provider, the sending of a request) are
      parameters of the input; the theorems quantify over them.
    - Sessions are not modelled.  An input names the connection that the RPC
      layer looked up.
    - The scheduler is an unordered collection of pending timers with unique
      identifiers (its own behaviour is modelled in SchedModel.v).  There is
      always room for one more timer, and any pending timer may expire next.
    - A timer handle that was set to zero by memset counts as not running.
    - User call-backs do not call back into the stack.
    - Connections with device access (ar_properties.device_access) do not
      occur: pf_cmdev_check_ar_param, pf_cmdev.c 1674-1800, refuses them. *)

From Coq Require Import List Arith Bool ZArith Lia.
From Verif Require Import Base.
Import ListNotations.
Set Implicit Arguments.
Open Scope nat_scope.

(** pnet_event_values_t, /repo/include/pnet_api.h 370-378. *)
Inductive event := EvAbort | EvStartup | EvPrmend | EvApplrdy | EvData.

(** pf_cmdev_state_values_t, /repo/src/pf_types.h (PF_CMDEV_STATE_xxx). *)
Inductive cmdev_st :=
| PowerOn | WCind | WCres | WSucnf | WPeind | WPeres | WArdy | WArdycnf
| WData | DevData | DevAbort.

(** pf_cmsu_state_values_t, pf_types.h. *)
Inductive cmsu_st := SuIdle | SuStartup | SuRun | SuAbort.
(** pf_cmio_state_values_t, pf_types.h. *)
Inductive cmio_st := IoIdle | IoStartup | IoWdata | IoData.
(** pf_cmwrr_state_values_t, pf_types.h. *)
Inductive cmwrr_st := WrIdle | WrStartup | WrPrmend | WrData.
(** pf_cmsm_state_values_t, pf_types.h. *)
Inductive cmsm_st := SmIdle | SmRun.
(** pf_cmpbe_state_values_t, pf_types.h. *)
Inductive cmpbe_st := PbIdle | PbWfind | PbWfrsp | PbWfpei | PbWfper | PbWfreq | PbWfcnf.

(** pf_iocr_type_values_t, pf_types.h. *)
Inductive crkind := CrInput | CrOutput | CrMcProvider | CrMcConsumer.

(** The part of pf_iocr_t that is used here: the type of the communication
    relation and cpm.cmio_start. *)
Record iocr := mkIocr { io_kind : crkind; io_start : bool }.

(** A sub-slot address: api, slot, sub-slot. *)
Definition key := (Z * Z * Z)%type.

(** An expected sub-module of a connect request (pf_exp_module_t and
    pf_exp_submodule_t): address, module ident number, sub-module ident
    number. *)
Record expsub := mkExp { e_key : key; e_mod : Z; e_sub : Z }.

(** pf_ar_t, pf_types.h: the fields used by the modelled functions. *)
Record ar := mkAr {
  a_use : bool;                 (* in_use *)
  a_arep : nat;                 (* arep *)
  a_uuid : Z;                   (* ar_param.ar_uuid *)
  a_dev : cmdev_st;
  a_su : cmsu_st;
  a_io : cmio_st;
  a_resched : bool;             (* cmio_timer_should_reschedule *)
  a_wrr : cmwrr_st;
  a_sm : cmsm_st;
  a_pbe : cmpbe_st;
  a_stored : bool;              (* cmpbe_stored_command <> 0 *)
  a_ready : bool;               (* ready_4_data *)
  a_legacy : bool;              (* ar_properties.startup_mode == false *)
  a_backup : bool;              (* ar_state == PF_AR_STATE_BACKUP *)
  a_crs : list iocr;            (* iocrs[0 .. nbr_iocrs-1] *)
  a_exp : list expsub;          (* exp_ident *)
  a_factor : Z;                 (* cm_initiator_activity_timeout_factor *)
  a_hsm : option nat;           (* cmsm_timeout *)
  a_hio : option nat            (* cmio_timeout *)
}.

(** The AR after memset to zero, pf_cmrpc.c 704-750 and
    758-811. *)
Definition ar0 : ar :=
  mkAr false 0 0 PowerOn SuIdle IoIdle false WrIdle SmIdle PbIdle false false
       true false [] [] 0 None None.

Definition with_use v (a : ar) := mkAr v (a_arep a) (a_uuid a) (a_dev a) (a_su a) (a_io a) (a_resched a) (a_wrr a) (a_sm a) (a_pbe a) (a_stored a) (a_ready a) (a_legacy a) (a_backup a) (a_crs a) (a_exp a) (a_factor a) (a_hsm a) (a_hio a).
Definition with_dev v (a : ar) := mkAr (a_use a) (a_arep a) (a_uuid a) v (a_su a) (a_io a) (a_resched a) (a_wrr a) (a_sm a) (a_pbe a) (a_stored a) (a_ready a) (a_legacy a) (a_backup a) (a_crs a) (a_exp a) (a_factor a) (a_hsm a) (a_hio a).
Definition with_su v (a : ar) := mkAr (a_use a) (a_arep a) (a_uuid a) (a_dev a) v (a_io a) (a_resched a) (a_wrr a) (a_sm a) (a_pbe a) (a_stored a) (a_ready a) (a_legacy a) (a_backup a) (a_crs a) (a_exp a) (a_factor a) (a_hsm a) (a_hio a).
Definition with_io v r (a : ar) := mkAr (a_use a) (a_arep a) (a_uuid a) (a_dev a) (a_su a) v r (a_wrr a) (a_sm a) (a_pbe a) (a_stored a) (a_ready a) (a_legacy a) (a_backup a) (a_crs a) (a_exp a) (a_factor a) (a_hsm a) (a_hio a).
Definition with_wrr v (a : ar) := mkAr (a_use a) (a_arep a) (a_uuid a) (a_dev a) (a_su a) (a_io a) (a_resched a) v (a_sm a) (a_pbe a) (a_stored a) (a_ready a) (a_legacy a) (a_backup a) (a_crs a) (a_exp a) (a_factor a) (a_hsm a) (a_hio a).
Definition with_sm v h (a : ar) := mkAr (a_use a) (a_arep a) (a_uuid a) (a_dev a) (a_su a) (a_io a) (a_resched a) (a_wrr a) v (a_pbe a) (a_stored a) (a_ready a) (a_legacy a) (a_backup a) (a_crs a) (a_exp a) (a_factor a) h (a_hio a).
Definition with_pbe v s (a : ar) := mkAr (a_use a) (a_arep a) (a_uuid a) (a_dev a) (a_su a) (a_io a) (a_resched a) (a_wrr a) (a_sm a) v s (a_ready a) (a_legacy a) (a_backup a) (a_crs a) (a_exp a) (a_factor a) (a_hsm a) (a_hio a).
Definition with_ready v (a : ar) := mkAr (a_use a) (a_arep a) (a_uuid a) (a_dev a) (a_su a) (a_io a) (a_resched a) (a_wrr a) (a_sm a) (a_pbe a) (a_stored a) v (a_legacy a) (a_backup a) (a_crs a) (a_exp a) (a_factor a) (a_hsm a) (a_hio a).
Definition with_crs v (a : ar) := mkAr (a_use a) (a_arep a) (a_uuid a) (a_dev a) (a_su a) (a_io a) (a_resched a) (a_wrr a) (a_sm a) (a_pbe a) (a_stored a) (a_ready a) (a_legacy a) (a_backup a) v (a_exp a) (a_factor a) (a_hsm a) (a_hio a).
Definition with_hio v (a : ar) := mkAr (a_use a) (a_arep a) (a_uuid a) (a_dev a) (a_su a) (a_io a) (a_resched a) (a_wrr a) (a_sm a) (a_pbe a) (a_stored a) (a_ready a) (a_legacy a) (a_backup a) (a_crs a) (a_exp a) (a_factor a) (a_hsm a) v.

(** pf_subslot_t with the address and the module ident number of its slot.
    Simplification: the nested tables of APIs, slots and sub-slots are one
    list of storage cells; a pulled sub-module leaves its cell with
    s_use = false. *)
Record subslot := mkSub {
  s_use : bool; s_key : key; s_mod : Z; s_ident : Z;
  s_owner : option nat   (* ownsm_state IOC/IOS and the index of the owner *)
}.

Inductive tkind := TSm | TIo.
(** A pending timer: identifier, call-back, the AR it is for and the delay in
    microseconds it was started with. *)
Record timer := mkTm { t_id : nat; t_kind : tkind; t_ar : nat; t_delay : Z }.

(** Observable effects, newest first in the trace.
    OEvent   the state call-back of the application (AREP, event)
    OCpmOpen / OPpmOpen / OCpmClose / OPpmClose / OPpmRun   start and stop of
             cyclic consumers and providers (AR index, CR index)
    OAlarmOpen / OAlarmClose    the alarm instance of an AR
    OWrite   a record write that was handed on (AR index, address, index)
    OReleased a request to send a "released" plug alarm (AR, address)
    OPlugAlarm / OPullAlarm   plug and pull alarms; the boolean is false for
             a "plug wrong" alarm
    OInfo    CMIO reports to CMDEV whether data exchange is possible
    OInd     an indication about a consumer reached CMIO (AR, CR, running)
    OConnected a positive answer to a connect request (AR index)
    ORefused a negative answer to a connect request (AR index used, if any) *)
Inductive obs :=
| OEvent (arep : nat) (e : event)
| OCpmOpen (i c : nat) | OCpmClose (i c : nat)
| OPpmOpen (i c : nat) | OPpmClose (i c : nat) | OPpmRun (i c : nat)
| OAlarmOpen (i : nat) | OAlarmClose (i : nat)
| OWrite (i : nat) (k : key) (ix : Z)
| OReleased (i : nat) (k : key)
| OPlugAlarm (i : nat) (k : key) (right : bool) | OPullAlarm (i : nat) (k : key)
| OInfo (i : nat) (b : bool)
| OInd (i c : nat) (running : bool)
| OConnected (i : nat) | ORefused (i : option nat).

(** The device: cmrpc_ar[], cmrpc_ar_order[], the sub-slots, the pending
    timers, the next timer identifier and the trace. *)
Record net := mkNet {
  n_ars : nat -> ar;
  n_order : list nat;
  n_subs : list subslot;
  n_timers : list timer;
  n_next : nat;
  n_tr : list obs
}.

Definition emit (o : obs) (n : net) : net :=
  mkNet (n_ars n) (n_order n) (n_subs n) (n_timers n) (n_next n) (o :: n_tr n).
Definition emits (os : list obs) (n : net) : net :=
  mkNet (n_ars n) (n_order n) (n_subs n) (n_timers n) (n_next n) (os ++ n_tr n).
Definition setar (i : nat) (a : ar) (n : net) : net :=
  mkNet (upd (n_ars n) i a) (n_order n) (n_subs n) (n_timers n) (n_next n) (n_tr n).
Definition setorder (l : list nat) (n : net) : net :=
  mkNet (n_ars n) l (n_subs n) (n_timers n) (n_next n) (n_tr n).
Definition setsubs (l : list subslot) (n : net) : net :=
  mkNet (n_ars n) (n_order n) l (n_timers n) (n_next n) (n_tr n).
Definition settimers (l : list timer) (n : net) : net :=
  mkNet (n_ars n) (n_order n) (n_subs n) l (n_next n) (n_tr n).

Definition del_timer (h : option nat) (l : list timer) : list timer :=
  match h with
  | None => l
  | Some k => filter (fun t => negb (t_id t =? k)) l
  end.

(** pf_scheduler_add, pf_scheduler.c; returns the new identifier. *)
Definition add_timer (k : tkind) (i : nat) (d : Z) (n : net) : nat * net :=
  (n_next n,
   mkNet (n_ars n) (n_order n) (n_subs n) (mkTm (n_next n) k i d :: n_timers n)
         (S (n_next n)) (n_tr n)).

(** pf_scheduler_restart of the start-up timer, used in pf_cmsm.c 195-201,
    254-260, 283-290, 313-320. *)
Definition sm_restart (i : nat) (n : net) : net :=
  let a := n_ars n i in
  let n1 := settimers (del_timer (a_hsm a) (n_timers n)) n in
  let '(id, n2) := add_timer TSm i (u32 (a_factor a * 100 * 1000)) n1 in
  setar i (with_sm (a_sm a) (Some id) a) n2.

(** pf_scheduler_remove_if_running on the start-up timer. *)
Definition sm_stop (i : nat) (n : net) : net :=
  let a := n_ars n i in
  setar i (with_sm (a_sm a) None a)
        (settimers (del_timer (a_hsm a) (n_timers n)) n).

(** Start of the CMIO poll timer, pf_cmio.c 121-126 and 217-222. *)
Definition io_add (i : nat) (n : net) : net :=
  let '(id, n1) := add_timer TIo i 100000 n in
  setar i (with_hio (Some id) (n_ars n i)) n1.

Definition io_stop (i : nat) (n : net) : net :=
  let a := n_ars n i in
  setar i (with_hio None a) (settimers (del_timer (a_hio a) (n_timers n)) n).

Fixpoint cr_obs (f : nat -> crkind -> list obs) (c : nat) (l : list iocr) : list obs :=
  match l with
  | [] => []
  | x :: r => cr_obs f (S c) r ++ f c (io_kind x)
  end.

Definition su_run (i : nat) c k : list obs :=
  match k with CrInput => [OPpmRun i c] | _ => [] end.
Definition su_close (i : nat) c k : list obs :=
  match k with CrInput => [OPpmClose i c] | CrOutput => [OCpmClose i c] | _ => [] end.
Definition su_open (i : nat) c k : list obs :=
  match k with CrInput => [OPpmOpen i c] | CrOutput => [OCpmOpen i c] | _ => [] end.

(** pf_cmsu_cmdev_state_ind, pf_cmsu.c 93-173.  Simplification: the start of
    a provider at PRMEND succeeds, and closing does not fail. *)
Definition cmsu_ind (i : nat) (e : event) (n : net) : net :=
  let a := n_ars n i in
  match a_su a with
  | SuIdle | SuAbort => n
  | SuStartup | SuRun =>
      match e with
      | EvAbort =>
          emits (OAlarmClose i :: cr_obs (su_close i) 0 (a_crs a))
                (setar i (with_su SuIdle a) n)
      | EvPrmend =>
          match a_su a with
          | SuStartup => emits (cr_obs (su_run i) 0 (a_crs a)) n
          | _ => n
          end
      | _ => n
      end
  end.

Definition is_consumer (k : crkind) : bool :=
  match k with CrOutput | CrMcConsumer => true | _ => false end.
Definition clear_start (l : list iocr) : list iocr :=
  map (fun c => if is_consumer (io_kind c) then mkIocr (io_kind c) false else c) l.

(** pf_cmio_cmdev_state_ind, pf_cmio.c 135-251. *)
Definition cmio_ind (i : nat) (e : event) (n : net) : net :=
  let a := n_ars n i in
  match a_io a, e with
  | IoIdle, EvAbort => setar i (with_io IoStartup false a) n
  | IoIdle, EvStartup =>
      setar i (with_io IoStartup false (with_crs (clear_start (a_crs a)) a)) n
  | IoStartup, EvAbort => setar i (with_io IoIdle false a) n
  | IoStartup, EvStartup =>
      setar i (with_io IoWdata (a_resched a) (with_crs (clear_start (a_crs a)) a)) n
  | IoStartup, EvPrmend =>
      let n1 := io_add i n in
      setar i (with_io IoWdata true (n_ars n1 i)) n1
  | IoWdata, EvAbort => setar i (with_io IoIdle false a) n
  | IoWdata, EvData =>
      let n1 := io_stop i n in
      setar i (with_io IoData false (n_ars n1 i)) n1
  | IoData, EvAbort => setar i (with_io IoIdle false a) n
  | _, _ => n
  end.

(** pf_cmwrr_cmdev_state_ind, pf_cmwrr.c 66-155. *)
Definition cmwrr_ind (i : nat) (e : event) (n : net) : net :=
  let a := n_ars n i in
  match a_wrr a, e with
  | _, EvAbort => setar i (with_wrr WrIdle a) n
  | WrIdle, EvStartup => setar i (with_wrr WrStartup a) n
  | WrStartup, EvPrmend => setar i (with_wrr WrPrmend a) n
  | WrPrmend, EvApplrdy => setar i (with_wrr WrData a) n
  | _, _ => n
  end.

(** pf_cmsm_cmdev_state_ind, pf_cmsm.c 159-232. *)
Definition cmsm_ind (i : nat) (e : event) (n : net) : net :=
  let a := n_ars n i in
  match a_sm a, e with
  | SmIdle, EvStartup => sm_restart i (setar i (with_sm SmRun (a_hsm a) a) n)
  | SmRun, EvData | SmRun, EvAbort =>
      let n1 := sm_stop i n in
      setar i (with_sm SmIdle (a_hsm (n_ars n1 i)) (n_ars n1 i)) n1
  | _, _ => n
  end.

(** pf_cmpbe_cmdev_state_ind, pf_cmpbe.c 99-138. *)
Definition cmpbe_ind (i : nat) (e : event) (n : net) : net :=
  let a := n_ars n i in
  match a_pbe a, e with
  | PbIdle, EvData => setar i (with_pbe PbWfind (a_stored a) a) n
  | PbIdle, _ => n
  | _, EvAbort => setar i (with_pbe PbIdle (a_stored a) a) n
  | _, _ => n
  end.

(** Removal of the first matching entry and moving the rest up,
    pf_cmrpc.c 766-781. *)
Fixpoint remove_first (x : nat) (l : list nat) : list nat :=
  match l with
  | [] => []
  | y :: r => if y =? x then r else y :: remove_first x r
  end.

(** pf_ar_release, pf_cmrpc.c 758-811: only logs if the AR is not in use. *)
Definition ar_release (i : nat) (n : net) : net :=
  if a_use (n_ars n i)
  then setar i ar0
         (match a_arep (n_ars n i) with
          | O => n
          | S j => setorder (remove_first j (n_order n)) n
          end)
  else n.

Definition key_eqb (a b : key) : bool :=
  let '(a1, a2, a3) := a in let '(b1, b2, b3) := b in
  (a1 =? b1)%Z && (a2 =? b2)%Z && (a3 =? b3)%Z.

(** pf_cmdev_get_exp_sub together with pf_cmdev_get_exp_mod, pf_cmdev.c
    1842-1905. *)
Definition expected (a : ar) (k : key) : option expsub :=
  find (fun e => key_eqb (e_key e) k) (a_exp a).

(** The loop over cmrpc_ar_order in pf_device_clear 960-990 and in
    pf_cmdev_plug_submodule 789-826: the first connection that expects the
    sub-slot. *)
Fixpoint first_expecting (ars : nat -> ar) (order : list nat) (k : key)
  : option (nat * expsub) :=
  match order with
  | [] => None
  | j :: r =>
      match expected (ars j) k with
      | Some e => Some (j, e)
      | None => first_expecting ars r k
      end
  end.

Definition owned_by (i : nat) (s : subslot) : bool :=
  match s_owner s with Some j => j =? i | None => false end.
Definition with_owner (o : option nat) (s : subslot) : subslot :=
  mkSub (s_use s) (s_key s) (s_mod s) (s_ident s) o.

(** The body of the loops of pf_device_clear, pf_cmdev.c 954-1000. *)
Definition clear_one (ars : nat -> ar) (order : list nat) (i : nat) (s : subslot)
  : subslot * list obs :=
  if owned_by i s then
    match first_expecting ars order (s_key s) with
    | Some (j, e) =>
        (with_owner (Some j) s,
         if (e_mod e =? s_mod s)%Z && (e_sub e =? s_ident s)%Z
         then [OReleased j (s_key s)] else [])
    | None => (with_owner None s, [])
    end
  else (s, []).

(** pf_device_clear, pf_cmdev.c 933-1005.  The plug state machine that sends
    the "released" alarms is modelled in PlugModel.v. *)
Fixpoint clear_all (ars : nat -> ar) (order : list nat) (i : nat) (l : list subslot)
  : list subslot * list obs :=
  match l with
  | [] => ([], [])
  | s :: r =>
      let '(s', os) := clear_one ars order i s in
      let '(r', os') := clear_all ars order i r in
      (s' :: r', os' ++ os)
  end.
Definition device_clear (i : nat) (n : net) : net :=
  let '(l, os) := clear_all (n_ars n) (n_order n) i (n_subs n) in
  emits os (setsubs l n).

(** pf_cmdev_state_ind, pf_cmdev.c 1394-1435.  The RPC part of the ABORT
    handling (pf_cmrpc_cmdev_state_ind, pf_cmrpc.c 5222-5276) is ar_release;
    its release of sessions is not modelled. *)
Definition state_ind (i : nat) (e : event) (n : net) : net :=
  let n := emit (OEvent (a_arep (n_ars n i)) e) n in
  let n := cmsu_ind i e n in
  let n := cmio_ind i e n in
  let n := cmwrr_ind i e n in
  let n := cmsm_ind i e n in
  let n := cmpbe_ind i e n in
  match e with
  | EvAbort => device_clear i (ar_release i n)
  | _ => n
  end.

(** pf_cmdev_set_state, pf_cmdev.c 1362-1390. *)
Definition set_dev (i : nat) (s : cmdev_st) (n : net) : net :=
  let n := setar i (with_dev s (n_ars n i)) n in
  match s with DevAbort => state_ind i EvAbort n | _ => n end.

(** pf_cmdev_cmio_info_ind, pf_cmdev.c 1437-1467. *)
Definition cmio_info (i : nat) (b : bool) (n : net) : net :=
  let n := emit (OInfo i b) n in
  let a := n_ars n i in
  match a_dev a with
  | WArdy | WArdycnf => setar i (with_ready b a) n
  | WData =>
      let n := setar i (with_ready b a) n in
      if b then set_dev i DevData (state_ind i EvData n) else n
  | _ => n
  end.

(** pf_cmio_timer_expired, pf_cmio.c 94-133. *)
Definition data_possible (a : ar) : bool :=
  forallb (fun c => negb (is_consumer (io_kind c)) || io_start c) (a_crs a).
Definition cmio_expired (i : nat) (n : net) : net :=
  let a := n_ars n i in
  match a_io a, a_resched a with
  | IoWdata, true => io_add i (cmio_info i (data_possible a) n)
  | _, _ => setar i (with_hio None (with_io (a_io a) false a)) n
  end.

(** pf_cmsm_timeout, pf_cmsm.c 128-155. *)
Definition cmsm_expired (i : nat) (n : net) : net :=
  let a := n_ars n i in
  let n := setar i (with_sm (a_sm a) None a) n in
  match a_sm a with
  | SmIdle => n
  | SmRun =>
      let n := state_ind i EvAbort n in
      setar i (with_sm SmIdle (a_hsm (n_ars n i)) (n_ars n i)) n
  end.

(** The scheduler takes an expired timer out of its list and calls the
    call-back (pf_scheduler_tick). *)
Definition expire (id : nat) (n : net) : net :=
  match find (fun t => t_id t =? id) (n_timers n) with
  | None => n
  | Some t =>
      let n := settimers (del_timer (Some id) (n_timers n)) n in
      match t_kind t with
      | TSm => cmsm_expired (t_ar t) n
      | TIo => cmio_expired (t_ar t) n
      end
  end.

(** What a connect request contains and how the code outside this model
    answers.
    q_claims: the expected sub-slots whose configuration was completed before
       the check stopped (all of them if the check succeeds).
    q_check: pf_cmdev_check_apdu, module diff and application accept.
    q_err: an error code was put into the result.
    q_start: pf_cmsu_start_req succeeds; otherwise q_opened consumers and
       providers were created before the failure. *)
Record connreq := mkReq {
  q_uuid : Z; q_legacy : bool; q_backup : bool;
  q_kinds : list crkind; q_exp : list expsub; q_factor : Z;
  q_parse : bool; q_claims : list key; q_check : bool; q_err : bool;
  q_start : bool; q_opened : nat
}.

(** pf_cmdev_exp_submodule_configure, pf_cmdev.c 3376-3530: a plugged and
    free sub-slot becomes owned by the new connection. *)
Definition claim (i : nat) (ks : list key) (l : list subslot) : list subslot :=
  map (fun s =>
         if s_use s && match s_owner s with None => true | _ => false end
            && existsb (key_eqb (s_key s)) ks
         then with_owner (Some i) s else s) l.

Fixpoint find_index (f : nat -> bool) (cnt from : nat) : option nat :=
  match cnt with
  | O => None
  | S c => if f from then Some from else find_index f c (S from)
  end.

(** pf_cmsu_start_req, pf_cmsu.c 175-272, in state IDLE. *)
Definition cmsu_start (i : nat) (q : connreq) (n : net) : net :=
  let a := n_ars n i in
  let a' := with_sm (a_sm a) None (with_su SuStartup a) in
  if q_start q
  then setar i a' (emits (OAlarmOpen i :: cr_obs (su_open i) 0 (a_crs a)) n)
  else setar i (with_su SuStartup a)
         (emits (cr_obs (su_open i) 0 (firstn (q_opened q) (a_crs a))) n).

(** pf_cmdev_rm_connect_ind, pf_cmdev.c 4822-4891, with
    pf_cmdev_cm_connect_rsp_pos and _neg (pf_cmdev.c 4712-4815), and the end
    of pf_cmrpc_rm_connect_ind, pf_cmrpc.c 2060-2105, that releases the AR if
    the result is negative. *)
Definition dev_connect (i : nat) (q : connreq) (n : net) : net :=
  let n := setsubs (claim i (q_claims q) (n_subs n)) n in
  if q_check q then
    let n := set_dev i WCres n in
    let n := cmsu_start i q n in
    let n := set_dev i WSucnf n in
    if q_start q then
      let n := state_ind i EvStartup n in
      let n := set_dev i WPeind n in
      if q_err q then emit (ORefused (Some i)) (ar_release i n)
      else emit (OConnected i) n
    else emit (ORefused (Some i)) (ar_release i n)
  else
    let n := set_dev i WCind n in
    if q_err q then emit (ORefused (Some i)) (ar_release i n)
    else emit (OConnected i) n.

(** pf_ar_allocate (704-750), pf_ar_find_by_uuid (813-850) and
    pf_cmrpc_rm_connect_ind (1974-2110), pf_cmrpc.c.  max_ar is PNET_MAX_AR;
    the table has one more entry, used only to produce an error answer. *)
Definition new_ar (max_ar i : nat) (q : connreq) : ar :=
  mkAr true (if i <? max_ar then S i else 0) (q_uuid q) PowerOn SuIdle IoIdle
       false WrIdle SmIdle PbIdle false false (q_legacy q) (q_backup q)
       (map (fun k => mkIocr k false) (q_kinds q)) (q_exp q) (q_factor q) None None.

Definition find_uuid (max_ar : nat) (u : Z) (n : net) : option nat :=
  find_index (fun j =>
    a_use (n_ars n j)
    && negb (match a_dev (n_ars n j) with PowerOn => true | _ => false end)
    && (a_uuid (n_ars n j) =? u)%Z) max_ar 0.

Definition connect (max_ar : nat) (q : connreq) (n : net) : net :=
  match find_index (fun j => negb (a_use (n_ars n j))) (S max_ar) 0 with
  | None => emit (ORefused None) n
  | Some i =>
      let n1 := setar i (new_ar max_ar i q)
                  (if i <? max_ar then setorder (n_order n ++ [i]) n else n) in
      if negb (q_parse q) then emit (ORefused (Some i)) (ar_release i n1)
      else match find_uuid max_ar (q_uuid q) n1 with
           | Some j =>
               set_dev j DevAbort (emit (ORefused (Some i)) (ar_release i n1))
           | None =>
               if a_arep (n_ars n1 i) =? 0
               then emit (ORefused (Some i)) (ar_release i n1)
               else dev_connect i q n1
           end
  end.

(** pf_cmdev_rm_release_ind, pf_cmdev.c 4893-4939. *)
Definition release (i : nat) (n : net) : net :=
  match a_dev (n_ars n i) with
  | WPeind | WArdy | WArdycnf | WData | DevData => set_dev i DevAbort n
  | _ => n
  end.

Inductive control := PrmBegin | PrmEnd | OtherControl.

(** pf_cmpbe_rm_dcontrol_ind, pf_cmpbe.c 140-232; the boolean is ret == 0. *)
Definition cmpbe_dcontrol (i : nat) (c : control) (cb_ok : bool) (n : net)
  : bool * net :=
  let a := n_ars n i in
  match a_pbe a, c with
  | PbIdle, _ => (true, n)
  | PbWfrsp, _ => (false, n)
  | PbWfind, _ =>
      if a_stored a then
        if cb_ok then (true, setar i (with_pbe PbWfpei false a) n)
        else (false, setar i (with_pbe PbWfind false a) n)
      else match c with
           | PrmBegin => (cb_ok, setar i (with_pbe PbWfrsp false a) n)
           | _ => (false, n)
           end
  | PbWfpei, PrmEnd => (true, setar i (with_pbe PbWfreq (a_stored a) a) n)
  | PbWfpei, _ => (false, n)
  | PbWfper, PrmEnd => (true, setar i (with_pbe PbWfreq (a_stored a) a) n)
  | PbWfper, _ => (false, n)
  | PbWfreq, PrmBegin =>
      let n := state_ind i EvAbort n in
      (false, setar i (with_pbe PbIdle (a_stored (n_ars n i)) (n_ars n i)) n)
  | PbWfreq, _ => (false, n)
  | PbWfcnf, PrmBegin => (false, setar i (with_pbe PbWfcnf true a) n)
  | PbWfcnf, _ => (false, n)
  end.

(** pf_cmdev_rm_dcontrol_ind, pf_cmdev.c 4941-5014, followed (after the
    answer was sent, pf_cmrpc.c 4773-4780) by the PRMEND event for the
    connection of the session.  sess: that connection, if the session has
    one. *)
Definition dcontrol (i : nat) (c : control) (cb_ok pdev_ok : bool)
    (sess : option nat) (n : net) : net :=
  let '(ok, prmend, n) :=
    match a_dev (n_ars n i) with
    | WPeind =>
        match c with
        | PrmEnd =>
            let n := set_dev i WPeres n in
            if cb_ok then
              let n := set_dev i WArdy n in
              (pdev_ok, pdev_ok, n)
            else (false, false, n)
        | _ => (false, false, n)
        end
    | DevData =>
        let '(ok, n) := cmpbe_dcontrol i c cb_ok n in (ok, false, n)
    | _ => (true, false, n)
    end in
  let n := if ok : bool then n else state_ind i EvAbort n in
  match sess with
  | Some k =>
      if prmend && a_use (n_ars n k) then state_ind k EvPrmend n else n
  | None => n
  end.

(** pf_cmdev_rm_ccontrol_cnf, pf_cmdev.c 5016-5088. *)
Definition ccontrol_cnf (i : nat) (noerror is_done : bool) (n : net) : net :=
  match a_dev (n_ars n i) with
  | WArdycnf =>
      if noerror then
        if is_done then
          if a_ready (n_ars n i)
          then set_dev i DevData (state_ind i EvData n)
          else set_dev i WData n
        else n
      else set_dev i DevAbort n
  | _ => n
  end.

(** pf_cmdev_cm_ccontrol_req, pf_cmdev.c 5090-5203 (pnet_application_ready).
    avail: the application has supplied data or status for all inputs;
    sent: the request to the controller could be sent. *)
Definition app_ready (i : nat) (avail sent : bool) (n : net) : net :=
  match a_dev (n_ars n i) with
  | WArdy =>
      if avail then
        let n := state_ind i EvApplrdy n in
        if sent then set_dev i WArdycnf n else n
      else n
  | _ => n
  end.

Fixpoint set_nth {A} (c : nat) (x : A) (l : list A) : list A :=
  match l, c with
  | [], _ => []
  | _ :: r, O => x :: r
  | y :: r, S c' => y :: set_nth c' x r
  end.
Definition set_start (c : nat) (b : bool) (l : list iocr) : list iocr :=
  match nth_error l c with
  | Some x => set_nth c (mkIocr (io_kind x) b) l
  | None => l
  end.

(** pf_cmio_cpm_state_ind, pf_cmio.c 253-325. *)
Definition cpm_state (i c : nat) (start : bool) (n : net) : net :=
  let n := emit (OInd i c start) n in
  let a := n_ars n i in
  match a_io a with
  | IoIdle => n
  | IoStartup => if a_legacy a && negb start then state_ind i EvAbort n else n
  | IoWdata => setar i (with_crs (set_start c start (a_crs a)) a) n
  | IoData => if start then n else state_ind i EvAbort n
  end.

(** pf_cmio_cpm_new_data_ind, pf_cmio.c 327-372. *)
Definition cpm_new_data (i c : nat) (b : bool) (n : net) : net :=
  let n := emit (OInd i c b) n in
  let a := n_ars n i in
  match a_io a with
  | IoWdata => setar i (with_crs (set_start c b (a_crs a)) a) n
  | _ => n
  end.

(** pf_cmsm_cm_read_ind / pf_cmsm_rm_read_ind, pf_cmsm.c 234-300. *)
Definition read_ind (i : nat) (n : net) : net :=
  match a_sm (n_ars n i) with SmRun => sm_restart i n | SmIdle => n end.

(** Index ranges of pf_cmwrr_write, pf_cmwrr.c 228-275 (PF_IDX_USER_MAX,
    PF_IDX_SUB_IM_0..15 and the three PDPort records, pf_types.h). *)
Definition writable (ix : Z) : bool :=
  (ix <=? 32767)%Z || ((45040 <=? ix)%Z && (ix <=? 45055)%Z)
  || (ix =? 32811)%Z || (ix =? 32815)%Z || (ix =? 32881)%Z.

Definition find_sub (k : key) (l : list subslot) : option subslot :=
  find (fun s => s_use s && key_eqb (s_key s) k) l.

(** pf_cmwrr_write and pf_cmwrr_rm_write_ind, pf_cmwrr.c 184-381. *)
Definition write_ind (i : nat) (k : key) (ix : Z) (n : net) : net :=
  let a := n_ars n i in
  let allowed :=
    match a_wrr a with WrStartup | WrData => negb (a_backup a) | _ => false end in
  let denied :=
    match find_sub k (n_subs n) with
    | Some s => negb (owned_by i s)
    | None => false
    end in
  let n := if allowed && negb denied && writable ix
           then emit (OWrite i k ix) n else n in
  read_ind i n.

(** pf_cmdev_plug_submodule, pf_cmdev.c 683-850, for a sub-slot that is not
    plugged.  Simplification: the first unused cell is reused, or a new one is
    added. *)
Fixpoint put_cell (s : subslot) (l : list subslot) : list subslot :=
  match l with
  | [] => [s]
  | x :: r => if s_use x then x :: put_cell s r else s :: r
  end.
Definition plug (k : key) (m id : Z) (n : net) : net :=
  match find_sub k (n_subs n) with
  | Some _ => n
  | None =>
      match first_expecting (n_ars n) (n_order n) k with
      | Some (j, e) =>
          emit (OPlugAlarm j k (e_sub e =? id)%Z)
            (setsubs (put_cell (mkSub true k m id (Some j)) (n_subs n)) n)
      | None => setsubs (put_cell (mkSub true k m id None) (n_subs n)) n
      end
  end.

(** pf_cmdev_pull_submodule, pf_cmdev.c 629-681. *)
Definition pull_cell (s : subslot) : subslot :=
  mkSub false (s_key s) (s_mod s) (s_ident s) (s_owner s).
Fixpoint pull_first (k : key) (l : list subslot) : list subslot :=
  match l with
  | [] => []
  | x :: r => if s_use x && key_eqb (s_key x) k then pull_cell x :: r
              else x :: pull_first k r
  end.
Definition pull (k : key) (n : net) : net :=
  match find_sub k (n_subs n) with
  | None => n
  | Some s =>
      let n := setsubs (pull_first k (n_subs n)) n in
      match s_owner s with Some j => emit (OPullAlarm j k) n | None => n end
  end.

(** Everything that can happen.  Inputs that concern a connection are ignored
    unless the connection is in use, because the RPC layer looks it up by its
    UUID or AREP (pf_cmrpc.c 813-890). *)
Inductive input :=
| IConnect (q : connreq)
| IRelease (i : nat)
| IDControl (i : nat) (c : control) (cb_ok pdev_ok : bool) (sess : option nat)
| IAppReady (i : nat) (avail sent : bool)
| ICControlCnf (i : nat) (noerror is_done : bool)
| IExpire (id : nat)
| ICpmState (i c : nat) (start : bool)
| ICpmNewData (i c : nat) (b : bool)
| IRead (i : nat)
| IWrite (i : nat) (k : key) (ix : Z)
| IAbort (i : nat)        (* pf_cmdev_cm_abort, pf_cmdev.c 1469-1509 *)
| IError (i : nat)        (* error indications of CPM, PPM, alarm, CMINA:
                             pf_cmsu.c 274-330 *)
| IPlug (k : key) (m id : Z)
| IPull (k : key).

Definition guard (i : nat) (n n' : net) : net :=
  if a_use (n_ars n i) then n' else n.

Definition step (max_ar : nat) (x : input) (n : net) : net :=
  match x with
  | IConnect q => connect max_ar q n
  | IRelease i => guard i n (release i n)
  | IDControl i c cb pdev sess => guard i n (dcontrol i c cb pdev sess n)
  | IAppReady i avail sent => guard i n (app_ready i avail sent n)
  | ICControlCnf i ok is_done => guard i n (ccontrol_cnf i ok is_done n)
  | IExpire id => expire id n
  | ICpmState i c s => guard i n (cpm_state i c s n)
  | ICpmNewData i c b => guard i n (cpm_new_data i c b n)
  | IRead i => guard i n (read_ind i n)
  | IWrite i k ix => guard i n (write_ind i k ix n)
  | IAbort i => guard i n (set_dev i DevAbort n)
  | IError i => guard i n (state_ind i EvAbort n)
  | IPlug k m id => plug k m id n
  | IPull k => pull k n
  end.

Fixpoint run (max_ar : nat) (xs : list input) (n : net) : net :=
  match xs with
  | [] => n
  | x :: r => run max_ar r (step max_ar x n)
  end.

(** Start of the stack with nothing plugged. *)
Definition net0 : net := mkNet (fun _ => ar0) [] [] [] 0 [].
