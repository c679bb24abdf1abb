(** What can be read off the observations of an alarm connection.  Histories
    are newest first.  Everything is about the connection that was established
    last, unless said otherwise; [p] is the priority (true: high). *)

From Coq Require Import List ZArith Arith Bool.
From Verif Require Import Base BlockModel AlarmModel.
Import ListNotations.
Set Implicit Arguments.
Open Scope nat_scope.

Notation same := Bool.eqb.

(** Numbers of DATA frames: 65535, then 0, 1, ..., 32767, 0, 1, ... *)
Definition canon (n : nat) : Z :=
  match n with O => 65535%Z | S k => (Z.of_nat k mod 32768)%Z end.
(** The number before the first one is 65534. *)
Definition before (n : nat) : Z := match n with O => 65534%Z | S k => canon k end.

(** Agreed number of retransmissions. *)
Fixpoint agreed (tr : list obs) : nat :=
  match tr with
  | [] => 0
  | AActivate r _ _ :: _ => r
  | _ :: t => agreed t
  end.

(** Alarms accepted from the application, oldest first. *)
Fixpoint accepted (p : bool) (tr : list obs) : list alarm :=
  match tr with
  | [] | AActivate _ _ _ :: _ => []
  | AAccept q a :: t => accepted p t ++ (if same q p then [a] else [])
  | _ :: t => accepted p t
  end.

(** Alarms that left the queue: sent, or given up. *)
Definition notif (c : content) : list alarm :=
  match c with FNotify a _ => [a] | _ => [] end.
Fixpoint handed (p : bool) (tr : list obs) : list alarm :=
  match tr with
  | [] | AActivate _ _ _ :: _ => []
  | ATx q f _ _ :: t => handed p t ++ (if same q p then notif (f_cont f) else [])
  | ALost q f :: t => handed p t ++ (if same q p then notif (f_cont f) else [])
  | ABusy q c :: t => handed p t ++ (if same q p then notif c else [])
  | _ :: t => handed p t
  end.

(** Is a DATA frame waiting for its transport acknowledge? *)
Fixpoint waiting (p : bool) (tr : list obs) : bool :=
  match tr with
  | [] | AActivate _ _ _ :: _ => false
  | ATx q f _ _ :: t | ALost q f :: t => (same q p && f_tack f) || waiting p t
  | ATack q _ :: t => negb (same q p) && waiting p t
  | _ :: t => waiting p t
  end.

(** The frame that was sent and waits for its transport acknowledge, and how
    often it was repeated. *)
Fixpoint pending (p : bool) (tr : list obs) : option (frame * nat) :=
  match tr with
  | [] | AActivate _ _ _ :: _ => None
  | ATx q f _ _ :: t => if same q p && f_tack f then Some (f, 0) else pending p t
  | AReTx q _ :: t =>
      if same q p then match pending p t with Some (f, n) => Some (f, S n) | None => None end
      else pending p t
  | ATack q _ :: t => if same q p then None else pending p t
  | _ :: t => pending p t
  end.

(** How many transport acknowledges came. *)
Fixpoint tacks (p : bool) (tr : list obs) : nat :=
  match tr with
  | [] | AActivate _ _ _ :: _ => 0
  | ATack q _ :: t => (if same q p then 1 else 0) + tacks p t
  | _ :: t => tacks p t
  end.

(** Numbers of the DATA frames that were sent, oldest first; a frame for which
    there was no buffer counts. *)
Fixpoint sent (p : bool) (tr : list obs) : list Z :=
  match tr with
  | [] | AActivate _ _ _ :: _ => []
  | ATx q f _ _ :: t | ALost q f :: t =>
      sent p t ++ (if same q p && f_tack f then [f_send f] else [])
  | _ :: t => sent p t
  end.

(** Numbers of the DATA frames that were taken, oldest first. *)
Fixpoint taken (p : bool) (tr : list obs) : list Z :=
  match tr with
  | [] | AActivate _ _ _ :: _ => []
  | ATaken q n :: t => taken p t ++ (if same q p then [n] else [])
  | _ :: t => taken p t
  end.

(** Alarm notifications handed to the driver, minus those confirmed by the
    controller. *)
Fixpoint notified (p : bool) (tr : list obs) : nat :=
  match tr with
  | [] | AActivate _ _ _ :: _ => 0
  | ATx q f _ _ :: t => (if same q p then length (notif (f_cont f)) else 0) + notified p t
  | _ :: t => notified p t
  end.
Fixpoint confirmed (p : bool) (tr : list obs) : nat :=
  match tr with
  | [] | AActivate _ _ _ :: _ => 0
  | ACnf q _ :: t => (if same q p then 1 else 0) + confirmed p t
  | _ :: t => confirmed p t
  end.
Definition outstanding (p : bool) (tr : list obs) : nat := notified p tr - confirmed p tr.

(** No allocation, transmission or timer start failed. *)
Fixpoint clean (p : bool) (tr : list obs) : bool :=
  match tr with
  | [] | AActivate _ _ _ :: _ => true
  | ATx q _ _ ok :: t => (negb (same q p) || ok) && clean p t
  | ALost q _ :: t | ANoArm q :: t => negb (same q p) && clean p t
  | _ :: t => clean p t
  end.

(** What the application owes: nothing, an acknowledge of an indicated alarm,
    or it waits for the confirmation of that acknowledge.  pnet_alarm_send_ack
    does not tell the priority; it is taken for the high one. *)
Inductive owing := Nothing | Owes | Given.
Fixpoint owed (p : bool) (tr : list obs) : owing :=
  match tr with
  | [] | AActivate _ _ _ :: _ => Nothing
  | AInd q _ _ _ _ _ :: t => if same q p then Owes else owed p t
  | AAckRet _ _ :: t =>
      match p, owed p t with true, Owes => Given | _, o => o end
  | AAckCnf q :: t => if same q p then Nothing else owed p t
  | _ :: t => owed p t
  end.

(** The frames that came. *)
Fixpoint received (p : bool) (tr : list obs) : list rmsg :=
  match tr with
  | [] | AActivate _ _ _ :: _ => []
  | AIn q m :: t => (if same q p then [m] else []) ++ received p t
  | _ :: t => received p t
  end.

(** How often the stack got and freed buffer [b], over all connections. *)
Fixpoint got (b : nat) (tr : list obs) : nat :=
  match tr with
  | [] => 0
  | AIn _ m :: t => (if g_buf m =? b then 1 else 0) + got b t
  | AAlloc c :: t => (if c =? b then 1 else 0) + got b t
  | _ :: t => got b t
  end.
Fixpoint freed (b : nat) (tr : list obs) : nat :=
  match tr with
  | [] => 0
  | AFree c :: t => (if c =? b then 1 else 0) + freed b t
  | _ :: t => freed b t
  end.

(** A statement about each observation and the history before it. *)
Fixpoint always (P : obs -> list obs -> Prop) (tr : list obs) : Prop :=
  match tr with
  | [] => True
  | o :: t => P o t /\ always P t
  end.

(** A queue with room for [cap] items holds the items of a list, oldest
    first. *)
Definition holds (A : Type) (cap : nat) (q : ring A) (l : list A) : Prop :=
  q_avail q = true /\ q_count q = length l /\ length l <= cap /\ q_rd q < cap /\
  q_wr q = (q_rd q + length l) mod cap /\
  forall i, i < cap -> q_items q i = nth_error l ((i + cap - q_rd q) mod cap).
