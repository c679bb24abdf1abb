(** Vocabulary for the properties of station name and IP settings, independent of
    the model of pf_cmina.c. *)
From Coq Require Import List ZArith Arith Bool.
From Verif Require Import Base CminaModel.
Import ListNotations.
Local Open Scope Z_scope.

(** ** Names *)

(** The labels of a name: the parts between the dots (code 46). *)
Fixpoint labels (s : list Z) : list (list Z) :=
  match s with
  | [] => [[]]
  | c :: r =>
      if c =? 46 then [] :: labels r
      else match labels r with
           | l :: t => (c :: l) :: t
           | [] => [[c]]
           end
  end.

Definition is_digit (c : Z) : Prop := 48 <= c <= 57.
Definition is_lower (c : Z) : Prop := 97 <= c <= 122.
(** Letters, digits and the hyphen (code 45). *)
Definition label_char (c : Z) : Prop := is_lower c \/ is_digit c \/ c = 45.

(** A label of at most 63 such characters, no hyphen at its ends. *)
Definition label_ok (l : list Z) : Prop :=
  (length l <= 63)%nat /\ Forall label_char l /\ hd 0 l <> 45 /\ last l 0 <> 45.

(** "port-" followed by three digits, or by three digits, a hyphen and five
    digits. *)
Definition port_label (l : list Z) : Prop :=
  exists d, Forall is_digit d /\ length d = 3%nat /\
    (l = [112; 111; 114; 116; 45] ++ d \/
     exists e, Forall is_digit e /\ length e = 5%nat /\
       l = [112; 111; 114; 116; 45] ++ d ++ 45 :: e).

(** The rules of the standard as quoted at pf_cmina.c 1495-1506 (all but the one on
    consecutive hyphens, which has exceptions defined elsewhere). *)
Definition standard_name (s : list Z) : Prop :=
  (1 <= length s <= 240)%nat /\
  Forall (fun l => l <> [] /\ label_ok l) (labels s) /\
  ~ port_label (hd [] (labels s)) /\
  ~ (length (labels s) = 4%nat /\
     Forall (fun l => (1 <= length l <= 3)%nat /\ Forall is_digit l) (labels s)).

(** ** Settings that survive a power cycle *)

(** kept: what the device would store now; saved: what is in the file. *)
Record store := mkStore { kept_name : list Z; kept_suite : suite; saved : option (list Z * suite) }.

(** What the settings are after power-up. *)
Definition power_up (k : cfg) (f : option (list Z * suite)) : list Z * suite :=
  match f with
  | Some x => x
  | None => (cstr (k_name k), k_suite k)
  end.

(** A block of a Set request: a valid name or suite is kept if the request is
    permanent (bit 0 of the qualifier), and nothing is kept if it is temporary.
    A reset of the communication parameters (modes 2, 3 and above) forgets name
    and suite, also in the file. *)
Definition forget (s : store) : store := mkStore [] suite0 None.
Definition reset_store (k : cfg) (mode : Z) (s : store) : store :=
  if mode =? 0 then mkStore (fst (power_up k (saved s))) (snd (power_up k (saved s))) (saved s)
  else if mode =? 1 then s
  else forget s.
Definition keep_block (k : cfg) (r : setreq) (qual : Z) (s : store) : store :=
  let permanent := Z.odd qual in
  match r with
  | RqName v => if stationname_valid v
                then mkStore (if permanent then v else []) (kept_suite s) (saved s) else s
  | RqSuite v => if ipsuite_valid v
                 then mkStore (kept_name s) (if permanent then v else suite0) (saved s) else s
  | RqFactory => forget s
  | RqReset => reset_store k (qual / 2) s
  end.
Definition keep_event (k : cfg) (e : cinput) (s : store) : store :=
  match e with
  | NSet l => fold_left (fun s b => keep_block k (fst b) (snd b) s) l s
  | NSave => mkStore (kept_name s) (kept_suite s) (Some (kept_name s, kept_suite s))
  | NRestart _ => mkStore (fst (power_up k (saved s))) (snd (power_up k (saved s))) (saved s)
  | NHello _ | NConns _ => s
  end.
Definition keep_run (k : cfg) (es : list cinput) (s : store) : store :=
  fold_left (fun s e => keep_event k e s) es s.

(** ** Network interface and messages *)

(** The suite with which the network interface was configured last (trace: newest
    first). *)
Fixpoint interface (l : list cobs) : option suite :=
  match l with
  | [] => None
  | CSetIp s _ _ :: _ => Some s
  | _ :: r => interface r
  end.

Definition is_hello (o : cobs) : bool := match o with CHello _ _ => true | _ => false end.
Definition no_restart (es : list cinput) : Prop :=
  Forall (fun e => match e with NRestart _ => False | _ => True end) es.

(** The device after power-up with or without a file. *)
Definition good_name (a : list Z) : Prop :=
  length a = 241%nat /\ In 0 a /\ stationname_valid (cstr a) = true.
Definition good_cfg (k : cfg) : Prop := good_name (k_name k) /\ ipsuite_valid (k_suite k) = true.
