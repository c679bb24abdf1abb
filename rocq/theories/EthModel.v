(** Model of the Ethernet dispatcher: src/common/pf_eth.c.  Initialisation of the
    network interfaces and sending (calls of the platform layer) are left out. *)
From Coq Require Import List ZArith Arith Bool.
From Verif Require Import Base CpmModel.
Import ListNotations.
Local Open Scope Z_scope.

(** pf_types.h pf_eth_frame_id_map_t.  A handler stands for the pair of the
    function and its argument. *)
Record fid_entry := mkFid { f_use : bool; f_id : Z; f_handler : Z }.

(** The table of pf_eth.c:112, after memset: [cap] is PF_ETH_MAX_MAP. *)
Definition map_init (cap : nat) : list fid_entry := repeat (mkFid false 0 0) cap.

(** pf_eth.c:266-297 pf_eth_frame_id_map_add: the first entry not in use. *)
Fixpoint map_add (m : list fid_entry) (id h : Z) : list fid_entry :=
  match m with
  | [] => []                                   (* No more room: only logged *)
  | e :: m' => if f_use e then e :: map_add m' id h else mkFid true id h :: m'
  end.

(** pf_eth.c:299-320 pf_eth_frame_id_map_remove: the first entry in use with
    this frame id. *)
Fixpoint map_remove (m : list fid_entry) (id : Z) : list fid_entry :=
  match m with
  | [] => []
  | e :: m' =>
    if negb (f_use e) || negb (f_id e =? id) then e :: map_remove m' id
    else mkFid false (f_id e) (f_handler e) :: m'
  end.

(** pf_eth.c:229-236: search of the handler. *)
Fixpoint map_find (m : list fid_entry) (id : Z) : option Z :=
  match m with
  | [] => None
  | e :: m' => if negb (f_use e) || negb (f_id e =? id) then map_find m' id else Some (f_handler e)
  end.

(** ntohs of two bytes of the frame. *)
Definition get16 (l : list Z) (pos : Z) : outcome Z :=
  do a <- byte_at l pos;
  do b <- byte_at l (pos + 1);
  Ok (a * 256 + b).

(** pf_eth.c:209-218: skip VLAN tags; eth_type_pos is a uint16_t.  The fuel
    bounds the number of tags; running out of it is reported as Ub (it does not
    happen: each tag takes four bytes of the frame). *)
Fixpoint skip_tags (fuel : nat) (l : list Z) (pos : Z) : outcome (Z * Z) :=
  match fuel with
  | O => Ub
  | S k =>
    do t <- get16 l pos;
    if t =? 33024 then skip_tags k l (u16 (pos + 4)) else Ok (t, pos)
  end.

(** What pf_eth_recv does with a frame. *)
Inductive recv :=
| RNone                                     (* not handled, return 0 *)
| RHandler (h id : Z) (frame_pos : Z)       (* frame handler called *)
| RLldp (frame_pos : Z).                    (* pf_lldp_recv called *)

(** pf_eth.c:197-264 pf_eth_recv.  The return value is that of the function
    called, or 0. *)
Definition eth_recv (m : list fid_entry) (l : list Z) : outcome recv :=
  do r <- skip_tags (S (length l)) l 12;
  let '(eth_type, pos) := r in
  let frame_pos := u16 (pos + 2) in
  if eth_type =? 34962 then                 (* 0x8892 Profinet *)
    do id <- get16 l frame_pos;
    match map_find m id with
    | Some h => Ok (RHandler h id frame_pos)
    | None => Ok RNone
    end
  else if eth_type =? 35020 then Ok (RLldp frame_pos)   (* 0x88CC *)
  else Ok RNone.

(** Histories of the table. *)
Inductive eop := EAdd (id h : Z) | ERemove (id : Z).

Definition estep (m : list fid_entry) (o : eop) : list fid_entry :=
  match o with EAdd id h => map_add m id h | ERemove id => map_remove m id end.
