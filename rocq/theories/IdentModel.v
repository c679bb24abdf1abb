(** Model of what is plugged in the device and of the calls that plug and pull:
    src/device/pf_cmdev.c 118-229 and 404-925.  The arrays are lists whose length
    is PNET_MAX_API, PNET_MAX_SLOTS and PNET_MAX_SUBSLOTS. *)
From Coq Require Import List ZArith Arith Bool.
Import ListNotations.
Local Open Scope Z_scope.

(** * Cells of an array *)

(** Search in an array of cells that are in use or not and carry a number. *)
Section Cells.
Variable A : Type.
Variable use : A -> bool.
Variable num : A -> Z.

(** The loop of pf_cmdev.c:127-151 pf_cmdev_get_api, 162-190 pf_cmdev_get_slot and
    201-229 pf_cmdev_get_subslot. *)
Fixpoint get (k : Z) (l : list A) : option A :=
  match l with
  | [] => None
  | x :: r => if use x && (num x =? k) then Some x else get k r
  end.

(** The element these functions point to is changed. *)
Fixpoint change (k : Z) (f : A -> A) (l : list A) : list A :=
  match l with
  | [] => []
  | x :: r => if use x && (num x =? k) then f x :: r else x :: change k f r
  end.

(** The loop over used elements in pf_cmdev.c:436-449, 494-508 and 549-563: the
    first one that is not in use is set by [f]. *)
Fixpoint take (f : A -> A) (l : list A) : option (list A) :=
  match l with
  | [] => None
  | x :: r => if use x then option_map (cons x) (take f r) else Some (f x :: r)
  end.
End Cells.
Arguments get {A}. Arguments change {A}. Arguments take {A}.

(** * The device *)

(** pf_types.h:2234-2240 pf_ownsm_state_values_t. *)
Inductive own := Free | Sol | Ios | Ioc.

(** pf_types.h:2293-2334 pf_subslot_t, pf_slot_t, pf_api_t.  [rs_data]: direction and
    lengths.  [rs_owner]: index of the AR, None for NULL.  The list of diagnosis
    items is modelled in DiagModel.v; its summary is kept here. *)
Record rsub := mkRsub { rs_use : bool; rs_num : Z; rs_ident : Z; rs_data : Z * Z * Z; rs_own : own; rs_owner : option nat;
  rs_fault : bool; rs_dem : bool; rs_req : bool }.
Record rslot := mkRslot { rl_use : bool; rl_num : Z; rl_ident : Z; rl_subs : list rsub }.
Record rapi := mkRapi { ra_use : bool; ra_num : Z; ra_slots : list rslot }.
Definition dev := list rapi.

Definition get_api (d : dev) (a : Z) : option rapi := get ra_use ra_num a d.
Definition get_slot (x : rapi) (s : Z) : option rslot := get rl_use rl_num s (ra_slots x).
Definition get_sub (x : rslot) (t : Z) : option rsub := get rs_use rs_num t (rl_subs x).

(** Changes of the structure a pointer points to. *)
Definition in_api (a : Z) (f : rapi -> rapi) (d : dev) : dev := change ra_use ra_num a f d.
Definition in_slot (a s : Z) (f : rslot -> rslot) (d : dev) : dev :=
  in_api a (fun x => mkRapi (ra_use x) (ra_num x) (change rl_use rl_num s f (ra_slots x))) d.
Definition in_sub (a s t : Z) (f : rsub -> rsub) (d : dev) : dev :=
  in_slot a s (fun x => mkRslot (rl_use x) (rl_num x) (rl_ident x) (change rs_use rs_num t f (rl_subs x))) d.

(** memset to 0. *)
Definition zero_sub : rsub := mkRsub false 0 0 (0, 0, 0) Free None false false false.
Definition zero_slot (nt : nat) : rslot := mkRslot false 0 0 (repeat zero_sub nt).
Definition zero_api (ns nt : nat) : rapi := mkRapi false 0 (repeat (zero_slot nt) ns).

(** pf_cmdev.c:414-456 pf_cmdev_new_api.  [ns], [nt]: PNET_MAX_SLOTS, PNET_MAX_SUBSLOTS. *)
Definition new_api (ns nt : nat) (d : dev) (a : Z) : option dev :=
  match get_api d a with
  | Some _ => None
  | None => take ra_use (fun _ => mkRapi true a (ra_slots (zero_api ns nt))) d
  end.

(** pf_cmdev.c:470-515 pf_cmdev_new_slot, when there is no such slot. *)
Definition new_slot (nt : nat) (s id : Z) (l : list rslot) : option (list rslot) :=
  take rl_use (fun _ => mkRslot true s id (rl_subs (zero_slot nt))) l.

(** pf_cmdev.c:575-629 pf_cmdev_plug_module; true means 0. *)
Definition plug_module (nt : nat) (d : dev) (a s id : Z) : dev * bool :=
  match get_api d a with
  | None => (d, false)
  | Some x =>
    match get_slot x s with
    | Some sl => (d, rl_ident sl =? id)
    | None =>
      match new_slot nt s id (ra_slots x) with
      | None => (d, false)
      | Some l => (in_api a (fun x => mkRapi (ra_use x) (ra_num x) l) d, true)
      end
    end
  end.

(** The alarms: pf_alarm_send_pull, pf_alarm_send_plug, pf_alarm_send_plug_wrong with
    the connection, API, slot and subslot.  What they return is given by a function. *)
Inductive akind := APull | APlug | APlugWrong.
Record alarm := mkAlarm { al_kind : akind; al_to : option nat; al_api : Z; al_slot : Z; al_sub : Z }.

Definition owned (x : rsub) : bool := match rs_own x with Ioc | Ios => true | _ => false end.

(** pf_cmdev.c:631-685 pf_cmdev_pull_submodule. *)
Definition pull_sub (sent : alarm -> bool) (d : dev) (a s t : Z) : dev * bool * list alarm :=
  match get_api d a with
  | None => (d, false, [])
  | Some x =>
    match get_slot x s with
    | None => (d, false, [])
    | Some y =>
      match get_sub y t with
      | None => (d, false, [])
      | Some z =>
        let d1 := in_sub a s t (fun z => mkRsub false (rs_num z) (rs_ident z) (rs_data z) (rs_own z) (rs_owner z)
                                          (rs_fault z) (rs_dem z) (rs_req z)) d in
        if owned z then let al := mkAlarm APull (rs_owner z) a s t in (d1, sent al, [al]) else (d1, false, [])
      end
    end
  end.

(** What the connections in use expect, in the order of cmrpc_ar_order: index of the
    connection, and its expected APIs with slots with subslots and ident numbers
    (the part of pf_exp_ident_t that is used here). *)
Definition expected := list (Z * list (Z * list (Z * Z))).
Definition lookup {B} (k : Z) (l : list (Z * B)) : option B :=
  match find (fun p => fst p =? k) l with Some p => Some (snd p) | None => None end.
(** pf_cmdev.c:1824-1840 pf_cmdev_get_exp_api, 1842-1865 pf_cmdev_get_exp_mod, 1867-1893
    pf_cmdev_get_exp_sub. *)
Definition exp_sub (e : expected) (a s t : Z) : option Z :=
  match lookup a e with
  | None => None
  | Some l => match lookup s l with None => None | Some l => lookup t l end
  end.
Fixpoint first_expecting (ars : list (nat * expected)) (a s t : Z) : option (nat * Z) :=
  match ars with
  | [] => None
  | (i, e) :: r => match exp_sub e a s t with Some id => Some (i, id) | None => first_expecting r a s t end
  end.

(** pf_cmdev.c:527-573 pf_cmdev_new_subslot, when there is no such subslot, and 791-796. *)
Definition new_sub (x : rsub) (l : list rsub) : option (list rsub) := take rs_use (fun _ => x) l.

(** pf_cmdev.c:687-864 pf_cmdev_plug_submodule with update = false (the only call is
    pnet_api.c:336). *)
Definition plug_sub (nt : nat) (sent : alarm -> bool) (ars : list (nat * expected)) (d : dev) (a s t mid id : Z) (data : Z * Z * Z)
  : dev * bool * list alarm :=
  match get_api d a with
  | None => (d, false, [])
  | Some x =>
    let d1 := match get_slot x s with None => fst (plug_module nt d a s mid) | Some _ => d end in
    let same := match get_slot x s with
                | None => false
                | Some y => match get_sub y t with Some z => rs_ident z =? id | None => false end
                end in
    if same then (d1, true, [])
    else
      match get_api d1 a with
      | None => (d1, false, [])
      | Some x =>
        match get_slot x s with
        | None => (d1, false, [])
        | Some y =>
          match get_sub y t with
          | Some _ => (d1, false, [])
          | None =>
            let '(own, owner, al) :=
              match first_expecting ars a s t with
              | None => (Free, None, None)
              | Some (i, e) => (Ioc, Some i, Some (mkAlarm (if e =? id then APlug else APlugWrong) (Some i) a s t))
              end in
            match new_sub (mkRsub true t id data own owner false false false) (rl_subs y) with
            | None => (d1, false, [])
            | Some l =>
              let d2 := in_slot a s (fun y => mkRslot (rl_use y) (rl_num y) (rl_ident y) l) d1 in
              match al with None => (d2, true, []) | Some al => (d2, sent al, [al]) end
            end
          end
        end
      end
  end.

(** pf_cmdev.c:891-906: the loop of pf_cmdev_pull_module over the subslot cells from
    [ix] on.  The slot is looked up again where the code follows a pointer. *)
Definition cell_at (d : dev) (a s : Z) (ix : nat) : option rsub :=
  match get_api d a with
  | None => None
  | Some x => match get_slot x s with None => None | Some y => nth_error (rl_subs y) ix end
  end.
Fixpoint pull_cells (n ix : nat) (sent : alarm -> bool) (d : dev) (a s : Z) : dev * bool * list alarm :=
  match n with
  | O => (d, true, [])
  | S n =>
    match cell_at d a s ix with
    | None => (d, true, [])
    | Some z =>
      if rs_use z then
        let '(d1, ok, al) := pull_sub sent d a s (rs_num z) in
        if ok then let '(d2, ok2, al2) := pull_cells n (S ix) sent d1 a s in (d2, ok2, al ++ al2)
        else (d1, false, al)
      else pull_cells n (S ix) sent d a s
    end
  end.

(** pf_cmdev.c:866-925 pf_cmdev_pull_module. *)
Definition pull_module (sent : alarm -> bool) (d : dev) (a s : Z) : dev * bool * list alarm :=
  match get_api d a with
  | None => (d, false, [])
  | Some x =>
    match get_slot x s with
    | None => (d, false, [])
    | Some y =>
      let '(d1, ok, al) := pull_cells (length (rl_subs y)) 0 sent d a s in
      if ok then (in_slot a s (fun y => mkRslot false (rl_num y) (rl_ident y) (rl_subs y)) d1, true, al) else (d1, false, al)
    end
  end.

(** * Histories *)

(** What happens to the device.  Take: a connection takes or releases the submodule
    (pf_cmdev.c:3741-3754, 933-1005) or its diagnosis changes.  NewApi: an expected
    API is created (pf_cmdev.c:3946-3955). *)
Inductive ev :=
| PlugModule (a s id : Z)
| PlugSub (ars : list (nat * expected)) (sent : alarm -> bool) (a s t mid id : Z) (data : Z * Z * Z)
| PullSub (sent : alarm -> bool) (a s t : Z)
| PullModule (sent : alarm -> bool) (a s : Z)
| NewApi (a : Z)
| Take (a s t : Z) (o : own) (owner : option nat) (fault dem req : bool).

Definition step (ns nt : nat) (d : dev) (e : ev) : dev :=
  match e with
  | PlugModule a s id => fst (plug_module nt d a s id)
  | PlugSub ars sent a s t mid id data => fst (fst (plug_sub nt sent ars d a s t mid id data))
  | PullSub sent a s t => fst (fst (pull_sub sent d a s t))
  | PullModule sent a s => fst (fst (pull_module sent d a s))
  | NewApi a => match new_api ns nt d a with Some d => d | None => d end
  | Take a s t o w f m r =>
    in_sub a s t (fun z => mkRsub (rs_use z) (rs_num z) (rs_ident z) (rs_data z) o w f m r) d
  end.

(** pf_cmdev.c:1312-1338 pf_cmdev_init: API 0 exists. *)
Definition init (na ns nt : nat) : dev :=
  match new_api ns nt (repeat (zero_api ns nt) na) 0 with Some d => d | None => [] end.
Definition run (na ns nt : nat) (h : list ev) : dev := fold_left (step ns nt) h (init na ns nt).
