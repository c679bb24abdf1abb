(** Model of how a connect request is taken apart: src/device/pf_cmrpc.c. *)
From Coq Require Import List ZArith Arith Bool.
From Verif Require Import Base BlockModel.
Import ListNotations.
Local Open Scope Z_scope.

(** pf_block_reader.c:559-592 pf_get_alarm_cr_request (pf_types.h pf_alarm_cr_request_t). *)
Record alarmp := mkAlarmp { l_type : Z; l_lt : Z; l_prio : Z; l_udp : Z; l_timeout : Z; l_retries : Z; l_ref : Z; l_maxlen : Z;
  l_hvlan : Z; l_hprio : Z; l_lvlan : Z; l_lprio : Z }.
Definition get_alarm_cr_request : reader alarmp :=
  rdo ty <- get_u16; rdo lt <- get_u16; rdo p <- get_u32; rdo t <- get_u16; rdo k <- get_u16; rdo ref <- get_u16; rdo m <- get_u16;
  rdo h <- get_u16; rdo l <- get_u16;
  rret (mkAlarmp ty lt (get_bits p 0 1) (get_bits p 1 1) t k ref m (get_bits h 0 12) (get_bits h 13 3) (get_bits l 0 12) (get_bits l 13 3)).

(** pf_block_reader.c:681-688 pf_get_ar_rpc_request. *)
Definition get_ar_rpc_request : reader Z := get_u16.

(** strlen of the C library. *)
Fixpoint strlen (s : list Z) : Z := match s with [] => 0 | x :: t => if x =? 0 then 0 else 1 + strlen t end.

(** The AR while the request is read (pf_types.h pf_ar_t).  nbr_ar_param is [s_nar], nbr_iocrs the length of
    [s_crs]; of alarm CR and RPC blocks all are kept here, the C code keeps their number and the last. *)
Record asked := mkAsked { s_ar : arparam; s_nar : nat; s_crs : list iocrp; s_exp : list expapi; s_alarms : list alarmp; s_rpcs : list Z }.

(** pf_cmrpc.c:1168-1208 pf_check_block_header: None if it is fine. *)
Definition check_header (len : Z) (h : bhead) (code1 : Z) : option pnio :=
  if negb (b_length h =? len) then Some (mkPnio 219 129 code1 1)
  else if negb (b_vhigh h =? 1) then Some (mkPnio 219 129 code1 2)
  else if negb (b_vlow h =? 0) then Some (mkPnio 219 129 code1 3)
  else None.

(** ar_properties.device_access, pf_block_reader.c:366-367. *)
Definition access (s : asked) : bool := negb (get_bits (ar_props (s_ar s)) 8 1 =? 0).

Definition e_cmrpc (code2 : Z) : pnio := mkPnio 219 129 64 code2.

(** The end of the cases of pf_cmrpc.c:1373-1394, 1402-1421, 1499-1525 and 1586-1607: no such block with device access;
    header; then the block counts. *)
Definition counted (s : asked) (h : bhead) (len code1 : Z) (s' : asked) : asked + pnio :=
  if access s then inr (e_cmrpc 1)
  else match check_header len h code1 with Some e => inr e | None => inl s' end.

(** pf_cmrpc.c:1242-1682, in pf_cmrpc_rm_connect_interpret_ind: one block, after its header [h].  [cr]: PNET_MAX_CR.
    Without the blocks of PNET_OPTION_PARAMETER_SERVER, PNET_OPTION_MC_CR, PNET_OPTION_AR_VENDOR_BLOCKS and
    PNET_OPTION_IR (off: then these are unknown blocks).  Simplified: fields that are not read because the request has
    ended are zero instead of what was there (it is refused then). *)
Definition conn_block (c : caps) (cr : nat) (first : bool) (h : bhead) (s : asked) : reader (asked + pnio) := fun r =>
  if b_type h =? 257 then
    do x <- get_ar_param (repeat 0 8) (repeat 0 8) (repeat 0 6) (repeat 0 241) r;
    let '(a, r') := x in
    Ok (if negb first then inr (mkPnio 219 129 1 0)
        else match check_header (u16 (54 + strlen (ar_name a))) h 1 with
             | Some e => inr e
             | None => inl (mkAsked a (S (s_nar s)) (s_crs s) (s_exp s) (s_alarms s) (s_rpcs s))
             end, r')
  else if b_type h =? 258 then
    if (cr <=? length (s_crs s))%nat then Ok (inr (e_cmrpc 3), r)
    else
      do x <- get_iocr_param (c_api c) (c_slots c * c_subslots c) (repeat 0 6) r;
      let '((ok, p), r') := x in
      Ok (if ok then counted s h (u16 (r_pos r' - r_pos r + 2)) 2 (mkAsked (s_ar s) (s_nar s) (s_crs s ++ [p]) (s_exp s) (s_alarms s) (s_rpcs s))
          else inr (e_cmrpc 7), r')
  else if b_type h =? 260 then
    do x <- get_exp_api_module c (s_exp s) r;
    let '(apis, r') := x in
    Ok (match r_res r' with
        | POk => counted s h (u16 (r_pos r' - r_pos r + 2)) 3 (mkAsked (s_ar s) (s_nar s) (s_crs s) apis (s_alarms s) (s_rpcs s))
        | PEnd | POutOfApi | POutOfExpSub => inr (e_cmrpc 8)
        | PNull | PError => inr (e_cmrpc 1)
        end, r')
  else if b_type h =? 259 then
    do x <- get_alarm_cr_request r;
    let '(l, r') := x in
    Ok (counted s h (u16 (r_pos r' - r_pos r + 2)) 4 (mkAsked (s_ar s) (s_nar s) (s_crs s) (s_exp s) (s_alarms s ++ [l]) (s_rpcs s)), r')
  else if b_type h =? 263 then
    do x <- get_ar_rpc_request r;
    let '(p, r') := x in
    Ok (counted s h (u16 (r_pos r' - r_pos r + 2)) 7 (mkAsked (s_ar s) (s_nar s) (s_crs s) (s_exp s) (s_alarms s) (s_rpcs s ++ [p])), r')
  else Ok (inr (e_cmrpc 1), r).

(** pf_cmrpc.c:1231-1700, in pf_cmrpc_rm_connect_interpret_ind: the loop.  It has no bound: [fuel] stands for its
    rounds, running out of it is Ub. *)
Fixpoint conn_blocks (fuel : nat) (c : caps) (cr : nat) (first : bool) (s : asked) : reader (asked + pnio) := fun r =>
  match fuel with
  | O => Ub
  | S n =>
      if is_ok (r_res r) && (r_pos r + 6 <=? r_len r) then
        do x <- get_block_header r;
        let '(h, r1) := x in
        if is_ok (r_res r1) && (r_pos r1 + b_length h + 4 - 6 <=? r_len r1) then
          do y <- conn_block c cr first h s r1;
          match y with
          | (inl s', r2) => conn_blocks n c cr false s' r2
          | (inr e, r2) => Ok (inr e, r2)
          end
        else Ok (inr (e_cmrpc 1), r1)
      else Ok (inl s, r)
  end.

(** A new AR: pf_cmrpc.c:704-751 pf_ar_allocate clears it (line 723). *)
Definition fresh : asked := mkAsked (mkArparam 0 (mkUuid 0 0 0 (repeat 0 8)) 0 (repeat 0 6) (mkUuid 0 0 0 (repeat 0 8)) 0 0 0 (repeat 0 241)) 0 [] [] [] [].

(** pf_cmrpc.c:1220-1760 pf_cmrpc_rm_connect_interpret_ind: what is asked for, or the error of the answer.  [args]:
    args_length in the session. *)
Definition conn_interpret (fuel : nat) (c : caps) (cr : nat) (args : Z) (r : rd) : outcome (asked + pnio) :=
  do x <- conn_blocks fuel c cr true fresh r;
  let '(y, r') := x in
  Ok (match y with
      | inr e => inr e
      | inl s => if is_ok (r_res r') then
                   if negb (r_pos r' =? r_len r') then inr (e_cmrpc 0)
                   else if negb (u32 (r_pos r' - r_pos r) =? args) then inr (e_cmrpc 0)
                   else inl s
                 else inr (e_cmrpc 0)
      end).
