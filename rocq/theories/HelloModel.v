(** The DCP HELLO message of a device that starts: pf_dcp_hello_req of src/common/pf_dcp.c, with the
    parts of DcpModel.v. *)
From Coq Require Import List ZArith Bool.
From Verif Require Import Base CminaModel DcpModel.
Import ListNotations.
Local Open Scope Z_scope.

(** pf_dcp.c:110-111 dcp_mc_addr_hello. *)
Definition hello_addr : list Z := [1; 14; 207; 0; 0; 1].
(** One call of pf_cmina_dcp_get_req and of pf_dcp_put_block, if the former returns 0; [f] is what is
    passed for the length and the memory that were told. *)
Definition hello_block (k : cfg) (a : ase) (opt sub : Z) (f : nat -> list Z -> list Z) (out : list Z) : list Z :=
  match get_value k a opt sub with
  | inl _ => out
  | inr (n, m) => put_block opt sub (Some 0) (f n m) out
  end.
(** pf_dcp.c:1259-1374, in pf_dcp_hello_req: the blocks (strlen of the name, the IP suite in network
    byte order, the two identifiers, and htons of the first byte of the initiative). *)
Definition hello_body (k : cfg) (a : ase) : list Z :=
  let out := hello_block k a o_prop p_name (fun _ m => cstr m) [] in
  let out := hello_block k a o_ip i_par (fun n _ => firstn n (net_suite (a_suite a))) out in
  let out := hello_block k a o_prop p_id (fun n m => firstn n m) out in
  let out := hello_block k a o_prop p_oem (fun n m => firstn n m) out in
  hello_block k a o_initiative 1 (fun n m => firstn n (be16 (hd 0 m))) out.
(** pf_dcp.c:1210-1386 pf_dcp_hello_req: the frame that is sent; None for the result -1, if there is no
    buffer. *)
Definition hello_req (k : cfg) (a : ase) (alloc : bool) : option (list Z) :=
  if alloc then
    let body := hello_body k a in
    Some (hello_addr ++ k_mac k ++ [136; 146] ++ be16 65276 ++ [6; 0] ++ be32 1 ++ be16 0 ++ be16 (Z.of_nat (length body)) ++ body)
  else None.
