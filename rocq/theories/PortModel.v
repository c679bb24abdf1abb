(** Model of the port helpers: src/device/pf_port.c.  [n] is
    fspm_cfg.num_physical_ports (uint8_t). *)
From Coq Require Import List ZArith Arith Bool.
From Verif Require Import Base.
Import ListNotations.
Local Open Scope Z_scope.

(** pf_lldp.h:95-99 pf_port_iterator_t. *)
Record iter := mkIter { it_next : Z; it_n : Z }.

(** pf_port.c:103-110 pf_port_init_iterator_over_ports. *)
Definition iter_init (n : Z) : iter := mkIter 1 n.

(** pf_port.c:112-133 pf_port_get_next. *)
Definition get_next (i : iter) : Z * iter :=
  if (it_next i =? it_n i) || (it_next i =? 0) then (it_next i, mkIter 0 (it_n i))
  else if it_n i <? it_next i then (0, mkIter 0 (it_n i))
  else (it_next i, mkIter (it_next i + 1) (it_n i)).

(** pf_port.c:135-156 pf_port_get_next_repeat_cyclic. *)
Definition get_next_cyclic (i : iter) : Z * iter :=
  let nx := if it_n i <? it_next i then 1 else it_next i in
  (nx, mkIter (if nx =? it_n i then 1 else nx + 1) (it_n i)).

(** Results of [k] consecutive calls. *)
Fixpoint calls (f : iter -> Z * iter) (k : nat) (i : iter) : list Z :=
  match k with
  | O => []
  | S k' => let '(r, i') := f i in r :: calls f k' i'
  end.

(** pf_port.c:197-203 pf_port_is_valid. *)
Definition port_valid (n p : Z) : bool := (0 <? p) && (p <=? n).

(** pf_port.c:170-177 pf_port_loc_port_num_to_dap_subslot
    (PNET_SUBSLOT_DAP_INTERFACE_1_PORT_1_IDENT is 0x8001, result uint16_t). *)
Definition port_to_subslot (n p : Z) : outcome Z :=
  if port_valid n p then Ok (u16 (32769 + p - 1)) else AssertFail.

(** pf_port.c:179-189 pf_port_dap_subslot_to_local_port. *)
Definition subslot_to_port (n s : Z) : Z :=
  let p := 1 + s - 32769 in
  if port_valid n p then p else 0.

(** pf_port.c:191-195 pf_port_subslot_is_dap_port_id. *)
Definition subslot_is_port (n s : Z) : bool := negb (subslot_to_port n s =? 0).

(** pf_port.c:86-101 pf_port_get_list_of_ports: the loop over the ports; the list
    has two bytes (pf_lldp.h:84-87), kept as a function of the index. *)
Fixpoint port_list_loop (k : nat) (port : Z) (l : nat -> Z) : outcome (nat -> Z) :=
  match k with
  | O => Ok l
  | S k' =>
    let index := (port - 1) / 8 in
    if negb (index <? 2) then AssertFail else
    let mask := Z.shiftl 1 (7 - (port - 1) mod 8) in
    port_list_loop k' (port + 1) (upd l (Z.to_nat index) (u8 (Z.lor (l (Z.to_nat index)) (u8 mask))))
  end.
Definition port_list (n : Z) : outcome (nat -> Z) := port_list_loop (Z.to_nat n) 1 (fun _ => 0).

(** pf_port.c:205-219 pf_port_get_port_number: [handles] are the network handles
    of the configured ports, in order. *)
Fixpoint port_number_from (p : Z) (handles : list Z) (h : Z) : Z :=
  match handles with
  | [] => 0
  | x :: r => if x =? h then p else port_number_from (p + 1) r h
  end.
Definition port_number (handles : list Z) (h : Z) : Z := port_number_from 1 handles h.
