(** Specification vocabulary for connection management: everything here is
    defined on the trace of observable effects (newest first) and on the
    device's configuration, without using the state machines. *)

From Coq Require Import List Arith Bool ZArith.
From Verif Require Import Base CmModel.
Import ListNotations.

(** The events the application has seen for AREP [a] since the last STARTUP,
    newest first; None if there was none or the connection was aborted since. *)
Fixpoint since (a : nat) (tr : list obs) : option (list event) :=
  match tr with
  | [] => None
  | OEvent a' e :: r =>
      if a' =? a then
        match e with
        | EvStartup => Some []
        | EvAbort => None
        | _ => option_map (cons e) (since a r)
        end
      else since a r
  | _ :: r => since a r
  end.

(** The connection has been started and has not reached data exchange. *)
Definition starting (a : nat) (tr : list obs) : Prop :=
  exists l, since a tr = Some l /\ ~ In EvData l.
(** The connection is in data exchange. *)
Definition exchanging (a : nat) (tr : list obs) : Prop :=
  exists l, since a tr = Some l /\ In EvData l.

(** What the connection with index [i] was last told about consumer [c] after
    the end of parameterisation: None before PRMEND, "not running" at PRMEND,
    afterwards the last indication. *)
Fixpoint told (i c : nat) (tr : list obs) : option bool :=
  match tr with
  | [] => None
  | OEvent a e :: r =>
      if a =? S i then
        match e with
        | EvStartup | EvAbort => None
        | EvPrmend => match told i c r with Some b => Some b | None => Some false end
        | _ => told i c r
        end
      else told i c r
  | OInd i' c' b :: r =>
      if (i' =? i) && (c' =? c) then
        match told i c r with Some _ => Some b | None => None end
      else told i c r
  | _ :: r => told i c r
  end.

(** The last report "data exchange possible" for connection [i] since its
    start. *)
Fixpoint reported (i : nat) (tr : list obs) : option bool :=
  match tr with
  | [] => None
  | OEvent a EvStartup :: r => if a =? S i then None else reported i r
  | OInfo i' b :: r => if i' =? i then Some b else reported i r
  | _ :: r => reported i r
  end.

(** Is the cyclic consumer / provider [c] of connection [i] open? *)
Fixpoint cpm_open (i c : nat) (tr : list obs) : bool :=
  match tr with
  | [] => false
  | OCpmOpen i' c' :: r => if (i' =? i) && (c' =? c) then true else cpm_open i c r
  | OCpmClose i' c' :: r => if (i' =? i) && (c' =? c) then false else cpm_open i c r
  | _ :: r => cpm_open i c r
  end.
Fixpoint ppm_open (i c : nat) (tr : list obs) : bool :=
  match tr with
  | [] => false
  | OPpmOpen i' c' :: r => if (i' =? i) && (c' =? c) then true else ppm_open i c r
  | OPpmClose i' c' :: r => if (i' =? i) && (c' =? c) then false else ppm_open i c r
  | _ :: r => ppm_open i c r
  end.
Fixpoint alarm_open (i : nat) (tr : list obs) : bool :=
  match tr with
  | [] => false
  | OAlarmOpen i' :: r => if i' =? i then true else alarm_open i r
  | OAlarmClose i' :: r => if i' =? i then false else alarm_open i r
  | _ :: r => alarm_open i r
  end.

(** The pending start-up supervision timers of connection [i]. *)
Definition supervisions (i : nat) (n : net) : list timer :=
  filter (fun t => match t_kind t with TSm => t_ar t =? i | TIo => false end)
         (n_timers n).

(** The order of events that an application may rely on, as an automaton:
    closed, started, parameterised, ready, exchanging data. *)
Inductive phase := Closed | Started | Parameterised | Ready | Exchanging.
Definition next_phase (p : phase) (e : event) : option phase :=
  match p, e with
  | Closed, EvStartup => Some Started
  | Started, EvPrmend => Some Parameterised
  | Parameterised, EvApplrdy => Some Ready
  | Ready, EvApplrdy => Some Ready      (* retried by the application *)
  | Ready, EvData => Some Exchanging
  | Started, EvAbort | Parameterised, EvAbort | Ready, EvAbort
  | Exchanging, EvAbort => Some Closed
  | _, _ => None
  end.
(** The phase after a trace (newest first); None: the order was violated. *)
Fixpoint phase_of (a : nat) (tr : list obs) : option phase :=
  match tr with
  | [] => Some Closed
  | OEvent a' e :: r =>
      if a' =? a
      then match phase_of a r with Some p => next_phase p e | None => None end
      else phase_of a r
  | _ :: r => phase_of a r
  end.

(** Obligations of the application and of the environment, used as hypotheses
    where stated. *)

(** An application that accepts a connection does not set an error code. *)
Definition answers_consistently (x : input) : Prop :=
  match x with IConnect q => q_check q = true -> q_err q = false | _ => True end.
(** ... and one that refuses does. *)
Definition refuses_with_error (x : input) : Prop :=
  match x with IConnect q => q_check q = false -> q_err q = true | _ => True end.
(** DControl requests arrive in the session that established the
    connection. *)
Definition own_session (x : input) : Prop :=
  match x with IDControl i _ _ _ sess => sess = Some i | _ => True end.
(** The creation of consumers and providers never fails. *)
Definition start_succeeds (x : input) : Prop :=
  match x with IConnect q => q_start q = true | _ => True end.
(** A refused connect request has not claimed sub-slots, and only expected
    sub-slots are claimed. *)
Definition claims_expected (x : input) : Prop :=
  match x with
  | IConnect q => forall k, In k (q_claims q) -> exists e, In e (q_exp q) /\ e_key e = k
  | _ => True
  end.
Definition refused_without_claims (x : input) : Prop :=
  match x with
  | IConnect q => q_check q = false \/ q_start q = false -> q_claims q = []
  | _ => True
  end.

(** The states of a device with room for [max_ar] connections that can be
    reached from its start by inputs with property [E]. *)
Definition reachable (max_ar : nat) (E : input -> Prop) (n : net) : Prop :=
  exists xs, Forall E xs /\ n = run max_ar xs net0.

(** The observable effects of an input are those it adds to the trace. *)
Definition effects (max_ar : nat) (x : input) (n : net) (os : list obs) : Prop :=
  n_tr (step max_ar x n) = os ++ n_tr n.

(** The connections in the order in which they were established. *)
Fixpoint established (tr : list obs) : list nat :=
  match tr with
  | [] => []
  | OConnected i :: r => established r ++ [i]
  | OEvent (S i) EvAbort :: r => remove Nat.eq_dec i (established r)
  | _ :: r => established r
  end.

(** An accepted connect request has gone through all its expected
    sub-slots. *)
Definition claims_all (x : input) : Prop :=
  match x with
  | IConnect q => q_check q = true -> forall e, In e (q_exp q) -> In (e_key e) (q_claims q)
  | _ => True
  end.

(** Connection [j] expects a sub-module at address [k]. *)
Definition expects (n : net) (j : nat) (k : key) : Prop :=
  exists e, In e (a_exp (n_ars n j)) /\ e_key e = k.
(** [j] is the first of the connections in [order] that expects [k]. *)
Definition first_expects (n : net) (order : list nat) (j : nat) (k : key) : Prop :=
  exists pre post, order = pre ++ j :: post /\ expects n j k /\
    forall x, In x pre -> ~ expects n x k.
