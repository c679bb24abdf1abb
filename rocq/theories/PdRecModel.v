(** Reading and writing the records of the ports and of the interface: src/device/pf_pdport.c
    pf_pdport_read_ind, pf_pdport_write_req, the interface record of src/device/pf_cmrdr.c, and
    the writers and readers of their blocks. *)
From Coq Require Import List ZArith Bool.
From Verif Require Import Base BlockModel PortModel LldpPortModel ConnRspModel.
Import ListNotations.
Local Open Scope Z_scope.

(** What is used of the peer: the names of pf_lldp_get_peer_port_name and
    pf_lldp_get_peer_station_name, and line_delay and mac_address of pf_lldp_peer_info_t. *)
Record seen := mkSeen { n_port : list Z; n_station : list Z; n_delay : Z; n_mac : list Z }.
(** pnal.h:85-107 pnal_eth_status_t (the fields used) and pnal_port_stats_t. *)
Record link := mkLink { k_mau : Z; k_running : bool }.
Record stats := mkStats { x_in : Z; x_out : Z; x_indisc : Z; x_outdisc : Z; x_inerr : Z; x_outerr : Z }.
(** What is used of the device.  [v_n]: the number of ports; per port the own name, the peer
    (None: is_peer_info_received is false), the link, the configured default MAU type, the
    wanted peer and the boundary (None: not active), and the answer of
    pnal_get_port_statistics (port 0: the interface; None: it fails); name_of_device_mode
    (None: not active); and the settings of the interface. *)
Record pdev := mkPdev { v_n : Z; v_name : Z -> list Z; v_peer : Z -> option seen; v_link : Z -> link; v_default : Z -> Z;
  v_check : Z -> option wanted; v_adjust : Z -> option boundary; v_stat : Z -> option stats; v_mode : option Z;
  v_mac : list Z; v_ip : Z; v_mask : Z; v_gate : Z; v_station : list Z }.

(** * Writing blocks *)

Definition blen (l : list Z) : Z := Z.of_nat (length l).
(** pf_block_writer.c:3787-3860 pf_put_pdport_data_check. *)
Definition put_check (fuel : nat) (be : bool) (slot subslot : Z) (p : wanted) : writer := fun w =>
  put_block be 512 (put_padding 2 ;; put_u16 be slot ;; put_u16 be subslot ;;
    put_block_header be 522 (5 + blen (w_port p) + blen (w_station p)) 1 0 ;; put_byte 1 ;;
    put_byte (blen (w_port p)) ;; put_mem (w_port p) ;; put_byte (blen (w_station p)) ;; put_mem (w_station p) ;;
    align fuel (w_pos w)) w.
(** pf_block_writer.c:3905-3953, in pf_put_pdport_data_real. *)
Definition put_peer (fuel : nat) (be : bool) (start : Z) (o : option seen) : writer :=
  match o with
  | None => wskip
  | Some p => put_byte (blen (n_port p)) ;; put_mem (n_port p) ;; put_byte (blen (n_station p)) ;; put_mem (n_station p) ;;
      align fuel start ;; put_u32 be (n_delay p) ;; put_mem (n_mac p) ;; put_padding 2
  end.
(** pf_block_writer.c:3862-3998 pf_put_pdport_data_real. *)
Definition put_real (fuel : nat) (be : bool) (subslot : Z) (name : list Z) (o : option seen) (k : link) (media : Z) : writer := fun w =>
  put_block be 527 (put_padding 2 ;; put_u16 be 0 ;; put_u16 be subslot ;; put_byte (blen name) ;; put_mem name ;;
    put_byte (match o with Some _ => 1 | None => 0 end) ;; put_padding 2 ;; put_peer fuel be (w_pos w) o ;;
    put_u16 be (k_mau k) ;; put_padding 2 ;; put_u32 be 0 ;; put_u32 be 0 ;;
    put_u16 be (if k_running k then 1 else 2) ;; put_padding 2 ;; put_u32 be media) w.
(** pf_block_writer.c:4000-4065 pf_put_pdport_statistics. *)
Definition put_stats (be : bool) (x : stats) : writer :=
  put_block be 593 (put_padding 2 ;; put_u32 be (x_in x) ;; put_u32 be (x_out x) ;; put_u32 be (x_indisc x) ;;
    put_u32 be (x_outdisc x) ;; put_u32 be (x_inerr x) ;; put_u32 be (x_outerr x)).
(** pf_block_writer.c:4067-4123 pf_put_pdinterface_data_real. *)
Definition put_intf (fuel : nat) (be : bool) (mac : list Z) (ip mask gate : Z) (name : list Z) : writer := fun w =>
  put_block be 576 (put_byte (blen name) ;; put_mem name ;; align fuel (w_pos w) ;; put_mem mac ;; put_padding 2 ;;
    put_u32 be ip ;; put_u32 be mask ;; put_u32 be gate) w.
(** pf_block_writer.c:4125-4191 pf_put_pd_multiblock_interface_and_statistics. *)
Definition put_multi_intf (fuel : nat) (be : bool) (api : Z) (mac : list Z) (ip mask gate : Z) (name : list Z) (x : stats) : writer :=
  put_block be 1024 (put_padding 2 ;; put_u32 be api ;; put_u16 be 0 ;; put_u16 be 32768 ;;
    put_intf fuel be mac ip mask gate name ;; put_stats be x).
(** pf_block_writer.c:4193-4256 pf_put_pd_multiblock_port_and_statistics. *)
Definition put_multi_port (fuel : nat) (be : bool) (api subslot : Z) (name : list Z) (o : option seen) (k : link) (media : Z) (x : stats) : writer :=
  put_block be 1024 (put_padding 2 ;; put_u32 be api ;; put_u16 be 0 ;; put_u16 be subslot ;;
    put_real fuel true subslot name o k media ;; put_stats be x).
(** pf_block_writer.c:4330-4371 pf_put_pdport_data_adj. *)
Definition put_adjust (be : bool) (subslot : Z) (d : boundary) : writer :=
  put_block be 514 (put_padding 2 ;; put_u16 be 0 ;; put_u16 be subslot ;; put_boundary be d).
(** pf_block_writer.c:4373-4411 pf_put_pd_interface_adj. *)
Definition put_mode (fuel : nat) (be : bool) (mode : Z) : writer := fun w =>
  put_block be 592 (put_padding 2 ;; put_u32 be (put_bits mode 1 0 0) ;; align fuel (w_pos w)) w.

(** * Reading records *)

(** pf_port.c:221-241 pf_port_get_media_type. *)
Definition media_type (mau : Z) : Z :=
  if mau =? 0 then 3
  else if (mau =? 5) || (mau =? 15) || (mau =? 16) || (mau =? 29) || (mau =? 30) then 1
  else if (mau =? 17) || (mau =? 18) || (mau =? 21) || (mau =? 22) then 2
  else 0.
(** pf_pdport.c:1485-1498 pf_pdport_filter_mau_type, 1512-1526
    pf_pdport_get_eth_status_filtered_mau. *)
Definition filtered (d : pdev) (p : Z) : link :=
  let k := v_link d p in mkLink (if (k_mau k =? 0) && negb (k_running k) then v_default d p else k_mau k) (k_running k).
(** pf_pdport.c:602-611 and 632-639, in pf_pdport_read_ind. *)
Definition stats0 : stats := mkStats 0 0 0 0 0 0.
Definition stats_or_0 (d : pdev) (p : Z) : stats := match v_stat d p with Some x => x | None => stats0 end.

(** pf_pdport.c:577-597, in pf_pdport_read_ind: the loop does not ask for the next port.
    [fuel] bounds the number of turns; AssertFail: not finished. *)
Fixpoint check_all (turns fuel : nat) (d : pdev) (slot subslot p : Z) : writer :=
  match turns with
  | O => fun _ => AssertFail
  | S k => if p =? 0 then wskip
           else match v_check d p with Some x => put_check fuel true slot subslot x | None => wskip end ;; check_all k fuel d slot subslot p
  end.
(** pf_pdport.c:625-667, in pf_pdport_read_ind. *)
Fixpoint real_all (turns fuel : nat) (d : pdev) (api p : Z) (i : iter) : writer :=
  match turns with
  | O => fun _ => AssertFail
  | S k => if p =? 0 then wskip
           else (fun w => do s <- port_to_subslot (v_n d) p;
                          let e := filtered d p in
                          put_multi_port fuel true api s (v_name d p) (v_peer d p) e (media_type (k_mau e)) (stats_or_0 d p) w) ;;
                real_all k fuel d api (fst (get_next i)) (snd (get_next i))
  end.

(** pf_pdport.c:480-746 pf_pdport_read_ind and pf_cmrdr.c:780-809, in pf_cmrdr_rm_read_ind:
    whether 0 is returned, and what is written.  The slot and subslot of the result are those
    of the request. *)
Definition pd_read (turns fuel : nat) (d : pdev) (api slot subslot index : Z) : bool * writer :=
  let p := subslot_to_port (v_n d) subslot in
  let isport := (slot =? 0) && subslot_is_port (v_n d) subslot in
  if index =? 32810 then
    if isport then let e := filtered d p in (true, put_real fuel true subslot (v_name d p) (v_peer d p) e (media_type (k_mau e))) else (false, wskip)
  else if index =? 32815 then
    if isport then (true, match v_adjust d p with Some x => put_adjust true subslot x | None => wskip end) else (false, wskip)
  else if index =? 32811 then
    if slot =? 0 then
      if subslot_is_port (v_n d) subslot then (true, match v_check d p with Some x => put_check fuel true slot subslot x | None => wskip end)
      else if subslot =? 0 then (true, check_all turns fuel d slot subslot (fst (get_next (iter_init (v_n d)))))
      else (false, wskip)
    else (false, wskip)
  else if index =? 63553 then
    let i := get_next (iter_init (v_n d)) in
    (true, put_multi_intf fuel true api (v_mac d) (v_ip d) (v_mask d) (v_gate d) (v_station d) (stats_or_0 d 0) ;; real_all turns fuel d api (fst i) (snd i))
  else if index =? 63554 then (true, wskip)
  else if index =? 32882 then
    if (slot =? 0) && ((subslot =? 32768) || subslot_is_port (v_n d) subslot) then
      match v_stat d p with Some x => (true, put_stats true x) | None => (false, wskip) end
    else (false, wskip)
  else if index =? 32881 then
    if (slot =? 0) && (subslot =? 32768) then (true, match v_mode d with Some m => put_mode fuel true m | None => wskip end) else (false, wskip)
  else if index =? 32896 then
    if (slot =? 0) && (subslot =? 32768) then (true, put_intf fuel true (v_mac d) (v_ip d) (v_mask d) (v_gate d) (v_station d)) else (false, wskip)
  else (false, wskip).

(** * Writing records *)

Definition set_check (d : pdev) (p : Z) (x : wanted) : pdev :=
  mkPdev (v_n d) (v_name d) (v_peer d) (v_link d) (v_default d) (fun q => if q =? p then Some x else v_check d q) (v_adjust d) (v_stat d) (v_mode d)
    (v_mac d) (v_ip d) (v_mask d) (v_gate d) (v_station d).
Definition set_adjust (d : pdev) (p : Z) (x : boundary) : pdev :=
  mkPdev (v_n d) (v_name d) (v_peer d) (v_link d) (v_default d) (v_check d) (fun q => if q =? p then Some x else v_adjust d q) (v_stat d) (v_mode d)
    (v_mac d) (v_ip d) (v_mask d) (v_gate d) (v_station d).
Definition set_mode (d : pdev) (m : Z) : pdev :=
  mkPdev (v_n d) (v_name d) (v_peer d) (v_link d) (v_default d) (v_check d) (v_adjust d) (v_stat d) (Some m)
    (v_mac d) (v_ip d) (v_mask d) (v_gate d) (v_station d).

(** pf_block_reader.c:956-967 pf_get_port_data_check and 1027-1038 pf_get_port_data_adjust:
    slot, subslot and the header of the first block inside. *)
Definition get_port_data : reader bhead :=
  rdo _ <- get_mem_into 4 [0; 0; 0; 0] 2; rdo _ <- get_u16; rdo _ <- get_u16; get_block_header.
(** pf_block_reader.c:976-1001 get_check_peer: as BlockModel.get_check_peer, with the lengths.
    The wanted names are the first bytes of the arrays. *)
Definition get_wanted : reader wanted :=
  rdo n <- get_byte;
  rdo p <- get_mem_into 256 (repeat 0 256) n;
  rdo p' <- put_nul p n;
  rdo k <- get_byte;
  rdo s <- get_mem_into 241 (repeat 0 241) k;
  rdo s' <- put_nul s k;
  rret (mkWanted (firstn (Z.to_nat n) p') (firstn (Z.to_nat k) s')).
(** pf_block_reader.c:1003-1025 pf_get_port_data_check_check_peers, at most
    PF_CHECK_PEERS_PER_PORT = 1 peer. *)
Definition get_peers : reader (list wanted) :=
  rdo n <- get_byte; fill 1 0 (Z.to_nat (if 1 <? n then 1 else n)) get_wanted.

(** pf_pdport.c:1149-1232 pf_pdport_write_data_check: the new state and whether 0 is
    returned.  The comparison with the peer is in LldpPortModel.write_check. *)
Definition write_check (d : pdev) (p : Z) (bytes : list Z) : outcome (pdev * bool) :=
  do x <- get_port_data (mkRd (Some bytes) (blen bytes) true POk 0);
  let '(h, r) := x in
  if b_type h =? 522 then
    do y <- get_peers r;
    match y with
    | (w :: _, r') => if is_ok (r_res r') then Ok (set_check d p w, true) else Ok (d, false)
    | ([], _) => Ok (d, false)
    end
  else Ok (d, false).
(** pf_pdport.c:1249-1317 pf_pdport_write_data_adj (sending of LLDP is in
    LldpPortModel.write_adjust). *)
Definition write_adjust (d : pdev) (p : Z) (bytes : list Z) : outcome (pdev * bool) :=
  do x <- get_port_data (mkRd (Some bytes) (blen bytes) true POk 0);
  let '(h, r) := x in
  if b_type h =? 548 then
    do y <- get_boundary r;
    if is_ok (r_res (snd y)) then Ok (set_adjust d p (fst y), true) else Ok (d, false)
  else Ok (d, false).
(** pf_pdport.c:1332-1366 pf_pdport_write_interface_adj: the result of reading is not looked
    at. *)
Definition write_mode (d : pdev) (bytes : list Z) : outcome (pdev * bool) :=
  do y <- get_interface_adjust (mkRd (Some bytes) (blen bytes) true POk 0);
  Ok (set_mode d (fst y), true).
(** pf_pdport.c:1368-1432 pf_pdport_write_req: only subslot and index of the request are
    used. *)
Definition pd_write (d : pdev) (slot subslot index : Z) (bytes : list Z) : outcome (pdev * bool) :=
  let p := subslot_to_port (v_n d) subslot in
  if 0 <? p then
    if index =? 32811 then write_check d p bytes
    else if index =? 32815 then write_adjust d p bytes
    else Ok (d, false)
  else if index =? 32881 then write_mode d bytes
  else Ok (d, false).
(** pf_cmrpc.c:3293-3319, in pf_cmrpc_perform_one_write: the header of the record is skipped. *)
Definition pd_write_record (d : pdev) (slot subslot index : Z) (record : list Z) : outcome (pdev * bool) :=
  pd_write d slot subslot index (skipn 6 record).
