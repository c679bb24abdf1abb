(** The response to a connect request: src/device/pf_cmdev.c 4836-4870 (what is told),
    src/device/pf_cmrpc.c pf_cmrpc_rm_connect_rsp and the writers of its blocks. *)
From Coq Require Import List ZArith Bool.
From Verif Require Import Base BlockModel DiffModel ConnModel.
Import ListNotations.
Local Open Scope Z_scope.

(** pf_types.h:1717-1733 pf_ar_vendor_request_t, pf_ar_vendor_result_t. *)
Record vendor := mkVendor { vd_ap : Z; vd_api : Z; vd_data : list Z }.
(** The parts of pf_ar_t that are used: ar_param, ar_result (pf_types.h:1417-1421), the
    results of the communication relations (type, reference, frame id), alarm_cr_result
    (type, reference, length), exp_ident, ar_rpc_result if the request has such a block,
    ar_server, and the vendor blocks. *)
Record con := mkCon { co_type : Z; co_uuid : uuid; co_key : Z; co_mac : list Z; co_port : Z; co_crs : list (Z * Z * Z);
  co_alarm : Z * Z * Z; co_diff : xid; co_rpc : option Z; co_adv : bool; co_name : list Z; co_vendors : list vendor }.

(** What is used of a request: the communication relations with their references, the type
    of the alarm relation, whether there is an RPC block, startup_mode, and structure
    identifier and API of the vendor blocks. *)
Record creq := mkCreq { rq_type : Z; rq_uuid : uuid; rq_key : Z; rq_crs : list (Z * crparam); rq_alarm : Z; rq_rpc : bool; rq_adv : bool;
  rq_vendors : list (Z * Z) }.

(** pf_cmdev.c:4840-4870, in pf_cmdev_rm_connect_ind.  [others]: frame ids of other
    connections; [r]: the alarm reference; [i]: the expected identification with the
    differences.  None: pf_cmdev_fix_frame_id does not end.  The port of the RPC server and
    the data of vendor blocks are never set: they are what pf_ar_allocate (pf_cmrpc.c:708-756)
    sets them to. *)
Definition results (mac name : list Z) (r : Z) (others : list Z) (i : xid) (q : creq) : option con :=
  match fix_ids others [] (map snd (rq_crs q)) with
  | None => None
  | Some ps => Some (mkCon (rq_type q) (rq_uuid q) (rq_key q) mac 34962
      (map (fun x : (Z * crparam) * crparam => (p_type (snd x), fst (fst x), p_fid (snd x))) (combine (rq_crs q) ps))
      (rq_alarm q, r, 200) i (if rq_rpc q then Some 0 else None) (rq_adv q) name (map (fun v => mkVendor (fst v) (snd v) []) (rq_vendors q)))
  end.

(** pf_block_writer.c:299-310 pf_put_padding_align, with a bound [fuel] on the number of
    turns; AssertFail: not finished. *)
Definition align (fuel : nat) (start : Z) : writer := fun w =>
  match put_padding_align fuel start 4 w with Some o => o | None => AssertFail end.

(** pf_block_writer.c:333-385 pf_put_ar_result. *)
Definition put_ar_result (be : bool) (c : con) : writer :=
  put_block be 33025 (put_u16 be (co_type c) ;; put_uuid be (co_uuid c) ;; put_u16 be (co_key c) ;; put_mem (co_mac c) ;; put_u16 be (co_port c)).
(** pf_block_writer.c:387-432 pf_put_iocr_result. *)
Definition put_iocr_result (be : bool) (x : Z * Z * Z) : writer :=
  put_block be 33026 (put_u16 be (fst (fst x)) ;; put_u16 be (snd (fst x)) ;; put_u16 be (snd x)).
(** pf_block_writer.c:434-478 pf_put_alarm_cr_result. *)
Definition put_alarm_cr_result (be : bool) (x : Z * Z * Z) : writer :=
  put_block be 33027 (put_u16 be (fst (fst x)) ;; put_u16 be (snd (fst x)) ;; put_u16 be (snd x)).
(** pf_block_writer.c:695-727 pf_put_ar_rpc_result. *)
Definition put_ar_rpc_result (be : bool) (port : Z) : writer := put_block be 33031 (put_u16 be port).
(** pf_block_writer.c:729-770 pf_put_ar_server_result. *)
Definition put_ar_server_result (fuel : nat) (be : bool) (name : list Z) : writer := fun w =>
  put_block be 33030 (put_u16 be (u16 (Z.of_nat (length name))) ;; put_mem name ;; align fuel (w_pos w)) w.
(** pf_block_writer.c:773-827 pf_put_ar_vendor_result. *)
Definition put_ar_vendor_result (fuel : nat) (be : bool) (v : vendor) : writer := fun w =>
  put_block be 33032 (put_u32 be (vd_ap v) ;; put_u32 be (vd_api v) ;; put_u16 be (u16 (Z.of_nat (length (vd_data v)))) ;; put_mem (vd_data v) ;;
    align fuel (w_pos w)) w.

(** The loops over relations and vendor blocks. *)
Fixpoint each {A} (f : A -> writer) (l : list A) : writer :=
  match l with [] => wskip | x :: l => f x ;; each f l end.

(** pf_cmrpc.c:1834-1911, in pf_cmrpc_rm_connect_rsp: the blocks.  With
    PNET_OPTION_AR_VENDOR_BLOCKS. *)
Definition put_blocks (fuel : nat) (be : bool) (c : con) : writer :=
  put_ar_result be c ;; each (put_iocr_result be) (co_crs c) ;; put_alarm_cr_result be (co_alarm c) ;;
  (if (0 <? xi_nd (co_diff c))%nat then put_ar_diff be (Some (co_diff c)) else wskip) ;;
  match co_rpc c with Some p => put_ar_rpc_result be p | None => wskip end ;;
  (if co_adv c then put_ar_server_result fuel be (co_name c) ;; each (put_ar_vendor_result fuel be) (co_vendors c) else wskip).

(** pf_types.h:783-795 pf_ndr_data_t; pf_cmrpc.c:1792-1815 and 1924-1947: its fields. *)
Record ndr := mkNdr { d_args : Z; d_max : Z; d_offset : Z; d_count : Z }.
Definition put_ndr (be : bool) (d : ndr) : writer := put_u32 be (d_args d) ;; put_u32 be (d_max d) ;; put_u32 be (d_offset d) ;; put_u32 be (d_count d).

(** pf_cmrpc.c:1772-1948 pf_cmrpc_rm_connect_rsp.  [o]: the connection, if the request
    succeeded; [d]: as read from the request. *)
Definition connect_rsp (fuel : nat) (be : bool) (st : pnio) (d : ndr) (o : option con) : writer := fun w =>
  do w1 <- put_pnet_status be st w;
  do w2 <- put_ndr be d w1;
  do w3 <- match o with Some c => put_blocks fuel be c | None => wskip end w2;
  let n := u32 (w_pos w3 - w_pos w2) in
  do w4 <- put_ndr be (mkNdr n (d_max d) (d_offset d) n) (mkWr (w_buf w3) (w_len w3) (w_pos w1));
  Ok (mkWr (w_buf w4) (w_len w4) (w_pos w3)).

(** pf_cmrpc.c:4596-4607, in pf_cmrpc_dce_packet: the size of the response; [pos]: end of the
    header of the request; [m]: args_maximum; [size]: PNET_MAX_SESSION_BUFFER_SIZE. *)
Definition rsp_size (pos m size : Z) : Z := let r := u32 (pos + m) in if size <? r then size else u16 r.
