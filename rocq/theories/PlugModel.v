(** Model of the plug state machine of one connection: src/device/pf_plugsm.c.
    The item type stands for the API, slot, sub-slot and identifiers copied
    into a queue entry (pf_types.h 2106-2116). *)

From Coq Require Import List Arith Bool ZArith.
From Verif Require Import Base.
Import ListNotations.
Set Implicit Arguments.
Open Scope nat_scope.

Section Plug.
Variable item : Type.
(** PF_AR_PLUG_MAX_QUEUE, pf_types.h 2093. *)
Variable max_queue : nat.

(** pf_plugsm_state_t, pf_types.h 2095-2101. *)
Inductive pstate := PIdle | PWfprmind | PWfdataupdate | PWfaplrdycnf.

(** pf_ar_plug_t, pf_types.h 2103-2116.  The fields current and count are
    uint16_t. *)
Record plug := mkPlug {
  p_state : pstate; p_current : nat; p_count : nat; p_queue : nat -> item }.

(** What can be seen from outside.
    PAlarm x ok: pf_alarm_send_released for x, and whether it succeeded
    PReleased x ok: the sm_released call-back for x and its answer
    PReady x: application ready for x is sent to the controller. *)
Inductive pobs := PAlarm (x : item) (ok : bool) | PReleased (x : item) (ok : bool)
                | PReady (x : item).

(** The value of a uint16_t, and its decrement. *)
Definition w16 (n : nat) : nat := Z.to_nat (u16 (Z.of_nat n)).
Definition dec16 (n : nat) : nat := Z.to_nat (u16 (Z.of_nat n - 1)).

(** pf_plugsm_released_alarm_req, pf_plugsm.c 28-98.  The result of
    pf_alarm_send_released is ignored by the code. *)
Definition released_alarm_req (x : item) (sent : bool) (p : plug) : plug * list pobs :=
  let p1 :=
    if max_queue <=? p_count p then p
    else
      let i := w16 (p_current p + p_count p) in
      let i := if max_queue <=? i then i - max_queue else i in
      mkPlug (p_state p) (p_current p) (w16 (S (p_count p))) (upd (p_queue p) i x) in
  match p_state p1 with
  | PIdle => (mkPlug PWfprmind (p_current p1) (p_count p1) (p_queue p1),
              [PAlarm (p_queue p1 (p_current p1)) sent])
  | _ => (p1, [])
  end.

(** pf_plugsm_application_ready_cnf, pf_plugsm.c 182-233. *)
Definition application_ready_cnf (sent : bool) (p : plug) : plug * list pobs :=
  match p_state p with
  | PWfaplrdycnf =>
      let count := dec16 (p_count p) in
      let current := w16 (S (p_current p)) in
      let current := if max_queue <=? current then 0 else current in
      if 0 <? count
      then (mkPlug PWfprmind current count (p_queue p), [PAlarm (p_queue p current) sent])
      else (mkPlug PIdle current count (p_queue p), [])
  | _ => (p, [])
  end.

(** pf_plugsm_prmend_ind, pf_plugsm.c 100-145.  answer: what the call-back
    returns (0 is true); without call-back it is true. *)
Definition prmend_ind (answer sent : bool) (p : plug) : plug * list pobs :=
  match p_state p with
  | PWfprmind =>
      let o := PReleased (p_queue p (p_current p)) answer in
      if answer
      then (mkPlug PWfdataupdate (p_current p) (p_count p) (p_queue p), [o])
      else
        let '(p', os) :=
          application_ready_cnf sent
            (mkPlug PWfaplrdycnf (p_current p) (p_count p) (p_queue p)) in
        (p', o :: os)
  | _ => (p, [])
  end.

(** pf_plugsm_application_ready_req, pf_plugsm.c 147-180. *)
Definition application_ready_req (p : plug) : plug * list pobs :=
  match p_state p with
  | PWfdataupdate =>
      (mkPlug PWfaplrdycnf (p_current p) (p_count p) (p_queue p),
       [PReady (p_queue p (p_current p))])
  | _ => (p, [])
  end.

(** The calls: pf_cmdev.c 989, pf_cmrpc.c 2727, pnet_api.c 486 and
    pf_cmrpc.c 4171.  The last boolean of each is the result of the alarm the
    call may send. *)
Inductive pin := PinReleased (x : item) (sent : bool) | PinPrmEnd (answer sent : bool)
               | PinAppReady | PinConfirmed (sent : bool).

Definition pstep (e : pin) (p : plug) : plug * list pobs :=
  match e with
  | PinReleased x sent => released_alarm_req x sent p
  | PinPrmEnd answer sent => prmend_ind answer sent p
  | PinAppReady => application_ready_req p
  | PinConfirmed sent => application_ready_cnf sent p
  end.

(** Observations of a history, oldest first. *)
Fixpoint prun (es : list pin) (p : plug) : plug * list pobs :=
  match es with
  | [] => (p, [])
  | e :: r => let '(p1, os) := pstep e p in
              let '(p2, os') := prun r p1 in (p2, os ++ os')
  end.

(** A new connection is cleared with memset, pf_cmrpc.c 725. *)
Variable junk : item.
Definition plug0 : plug := mkPlug PIdle 0 0 (fun _ => junk).
End Plug.
Arguments PinPrmEnd {item}.
Arguments PinAppReady {item}.
Arguments PinConfirmed {item}.
