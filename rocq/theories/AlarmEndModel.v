(** Model of the alarm endpoints: the table that tells to which connection an
    alarm frame belongs.  A frame carries the reference number that was
    announced in the answer to the connect request.

    Simplification: of a connect request only the place in the connection table
    and the phase in which it fails are modelled (CmModel.v has the rest). *)
From Coq Require Import List Arith Bool.
From Verif Require Import Base.
Import ListNotations.
Set Implicit Arguments.

(** net->alarm_endpoint, pf_types.h 3009-3014 (ar: place in the connection
    table), and for each place the reference announced to the connection that is
    established there. *)
Record est := mkEst { e_ar : nat -> option nat; e_active : nat -> bool; e_conn : nat -> option nat }.
Definition est0 : est := mkEst (fun _ => None) (fun _ => false) (fun _ => None).

(** How a connect request ends: refused before an endpoint is allocated
    (pf_cmdev.c 4832-4839), refused after that by the application or by
    pf_cmsu_start_req before alarms are activated (pf_cmdev.c 4876, pf_cmsu.c
    180-215), failed after that (pf_cmsu.c 216-240), or established. *)
Inductive phase := Early | Refused | Failed | Established.
Inductive einput := EConnect (slot : nat) (ph : phase) | EEnd (slot : nat).

Section End.
(** PNET_MAX_AR. *)
Variable max : nat.

(** The first entry with a property. *)
Definition first (f : nat -> bool) : option nat := find f (seq 0 max).
Definition eqo (a b : option nat) : bool :=
  match a, b with
  | Some x, Some y => x =? y
  | None, None => true
  | _, _ => false
  end.

(** pf_alarm_allocate_endpoint, pf_alarm.c 684-698. *)
Definition allocate (slot : nat) (s : est) : nat * est :=
  match first (fun i => eqo (e_ar s i) None) with
  | Some i => (S i, mkEst (upd (e_ar s) i (Some slot)) (upd (e_active s) i false) (e_conn s))
  | None => (0, s)
  end.

(** pf_alarm_free_endpoint, pf_alarm.c 700-713. *)
Definition free_endpoint (slot : nat) (s : est) : est :=
  match first (fun i => eqo (e_ar s i) (Some slot)) with
  | Some i => mkEst (upd (e_ar s) i None) (upd (e_active s) i false) (e_conn s)
  | None => s
  end.

(** The end of pf_alarm_apmx_activate, pf_alarm.c 1077-1085, and the part of
    pf_alarm_apmx_close, 1620-1628. *)
Definition mark (v : bool) (slot : nat) (s : est) : est :=
  match first (fun i => eqo (e_ar s i) (Some slot)) with
  | Some i => mkEst (e_ar s) (upd (e_active s) i v) (e_conn s)
  | None => s
  end.

Definition setconn (slot : nat) (v : option nat) (s : est) : est :=
  mkEst (e_ar s) (e_active s) (upd (e_conn s) slot v).

(** Connect: pf_cmdev_rm_connect_ind, pf_cmdev.c 4822-4892, with
    pf_cmsu_start_req, pf_cmsu.c 178-262; pf_ar_release (pf_cmrpc.c 758-792)
    does not free the endpoint.  End: pf_cmsu_cmdev_state_ind,
    pf_cmsu.c 155-156. *)
Definition estep (e : einput) (s : est) : est :=
  match e with
  | EConnect slot ph =>
      if slot <? max then
        match e_conn s slot with
        | Some _ => s
        | None =>
            match ph with
            | Early => s
            | Refused => snd (allocate slot s)
            | Failed => mark true slot (snd (allocate slot s))
            | Established =>
                let '(r, s) := allocate slot s in setconn slot (Some r) (mark true slot s)
            end
        end
      else s
  | EEnd slot =>
      match e_conn s slot with
      | Some _ => setconn slot None (free_endpoint slot (mark false slot s))
      | None => s
      end
  end.
Fixpoint erun (es : list einput) (s : est) : est :=
  match es with
  | [] => s
  | e :: r => erun r (estep e s)
  end.

(** pf_alarm_apmr_frame_handler, pf_alarm.c 773-781: the place of the connection
    that gets a frame with reference [r]. *)
Definition deliver (r : nat) (s : est) : option nat :=
  if (0 <? r) && (r <=? max) && e_active s (r - 1) then e_ar s (r - 1) else None.
End End.
