(** Model of the check for a fast port that is made before a connection is accepted: src/device/pf_pdport.c. *)
From Coq Require Import List ZArith Bool.
From Verif Require Import Base PortModel.
Local Open Scope Z_scope.

(** The status of a link (pnal.h pnal_eth_status_t): running and operational_mau_type. *)
Record link := mkLink { l_running : bool; l_mau : Z }.

(** pnal.h:85-95. *)
Definition mau_unknown : Z := 0.
Definition mau_10_t : Z := 5.
Definition mau_100_tx_half : Z := 15.
Definition mau_100_tx_full : Z := 16.
Definition mau_100_fx_half : Z := 17.
Definition mau_100_fx_full : Z := 18.
Definition mau_1000_x_half : Z := 21.
Definition mau_1000_x_full : Z := 22.
Definition mau_1000_t_half : Z := 29.
Definition mau_1000_t_full : Z := 30.

(** pf_pdport.c:257-283: the loop; [k] bounds the turns (None: not enough).  [status]: pf_pdport_get_eth_status of the
    port, environment.  Not modelled: the log. *)
Fixpoint fast_loop (k : nat) (status : Z -> link) (port : Z) (it : iter) (found : bool) : option bool :=
  if port =? 0 then Some found
  else match k with
       | O => None
       | S k' =>
           let fast_enough := mau_100_tx_full <=? l_mau (status port) in
           let found' := if fast_enough && l_running (status port) then true else found in
           let '(port', it') := get_next it in
           fast_loop k' status port' it' found'
       end.

(** pf_pdport.c:244-286 pf_pdport_is_a_fast_port_in_use.  [n]: num_physical_ports. *)
Definition fast_port (k : nat) (n : Z) (status : Z -> link) : option bool :=
  let '(port, it) := get_next (iter_init n) in fast_loop k status port it false.

(** pf_cmdev.c:1587-1590 pf_cmdev_check_pdev: whether 0 is returned. *)
Definition check_pdev (k : nat) (n : Z) (status : Z -> link) : option bool := fast_port k n status.
