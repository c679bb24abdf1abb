(** Model of the release and DControl requests of a controller: src/device/pf_cmrpc.c. *)
From Coq Require Import List ZArith Arith Bool.
From Verif Require Import Base BlockModel ConnRspModel.
Import ListNotations.
Local Open Scope Z_scope.

(** pf_cmrpc.c:2137-2169, in pf_cmrpc_rm_release_interpret_req, and 2469-2505, in
    pf_cmrpc_rm_dcontrol_interpret_req: the loop over the blocks.  [types]: the block types that are
    read; [bad]: whether another type was seen; [tk]: block type and contents read last.  The loop has
    no bound: [fuel] stands for its rounds, running out of it is Ub.  Simplified: a block that is cut
    off does not keep bytes of the one before it (the request is refused then, its contents unused). *)
Fixpoint blocks (fuel : nat) (types : list Z) (bad : bool) (tk : Z * control) : reader (bool * (Z * control)) := fun r =>
  match fuel with
  | O => Ub
  | S n =>
      if (r_pos r + 6 <=? r_len r) && is_ok (r_res r) then
        (rdo h <- get_block_header; fun r1 =>
           if (r_pos r1 + b_length h + 4 - 6 <=? r_len r1) && is_ok (r_res r1) then
             if existsb (Z.eqb (b_type h)) types then (rdo k <- get_control (repeat 0 8); blocks n types bad (b_type h, k)) r1
             else blocks n types true tk r1
           else blocks n types bad tk r1) r
      else Ok ((bad, tk), r)
  end.

(** The answers of a request: to other blocks, to a wrong length, to a wrong command. *)
Record refusals := mkRef { f_types : list Z; f_command : Z; f_unknown : pnio; f_length : pnio; f_wrong : pnio }.

(** pf_cmrpc.c:2129-2235 pf_cmrpc_rm_release_interpret_req (PF_BT_RELEASE_BLOCK_REQ, command bit 2). *)
Definition release_kind : refusals := mkRef [276] 4 (mkPnio 219 129 64 1) (mkPnio 220 129 64 0) (mkPnio 220 129 64 6).
(** pf_cmrpc.c:2462-2573 pf_cmrpc_rm_dcontrol_interpret_req (PF_BT_PRMBEGIN_REQ, PF_BT_PRMEND_REQ,
    PF_BT_PRMEND_PLUG_ALARM_REQ, command bit 0). *)
Definition dcontrol_kind : refusals := mkRef [280; 272; 273] 1 (mkPnio 221 129 64 1) (mkPnio 221 129 64 0) (mkPnio 221 129 20 8).

(** pf_cmrpc.c:2171-2229 and 2507-2566, and the loops above: None if the request is accepted.  [args]:
    args_length in the session. *)
Definition interpret (f : refusals) (fuel : nat) (args : Z) (tk : Z * control) (r : rd) : outcome (option pnio * (Z * control)) :=
  do x <- blocks fuel (f_types f) false tk r;
  let '((bad, tk'), r') := x in
  Ok (if bad then Some (f_unknown f)
      else if is_ok (r_res r') then
        if negb (r_pos r' =? r_len r') then Some (f_length f)
        else if negb (u32 (r_pos r' - r_pos r) =? args) then Some (f_length f)
        else if negb (k_command (snd tk') =? f_command f) then Some (f_wrong f)
        else None
      else Some (f_length f), tk').

(** pf_cmrpc.c:2310, 2647: control_command is BIT (PF_CONTROL_COMMAND_BIT_DONE). *)
Definition done (k : control) : control := mkControl (k_uuid k) (k_session k) 8 (k_props k) (k_alarmseq k).

(** pf_cmrpc.c:2252-2341 pf_cmrpc_rm_release_rsp and 2588-2678 pf_cmrpc_rm_dcontrol_rsp; [ty]: type of
    the block.  Also what they leave in the session and in the control block. *)
Definition control_rsp (be : bool) (ty : Z) (st : pnio) (d : ndr) (k : control) (w : wr) : outcome (ndr * control * wr) :=
  do w1 <- put_pnet_status be st w;
  do w2 <- put_ndr be d w1;
  let k' := if p_code st =? 0 then done k else k in
  do w3 <- (if p_code st =? 0 then put_control be ty k' else wskip) w2;
  let n := u32 (w_pos w3 - w_pos w2) in
  let d' := mkNdr n (d_max d) (d_offset d) n in
  do w4 <- put_ndr be d' (mkWr (w_buf w3) (w_len w3) (w_pos w1));
  Ok (d', k', mkWr (w_buf w4) (w_len w4) (w_pos w3)).

(** pf_cmrpc.c:2369, 2702: memset of the control block. *)
Definition control0 : control := mkControl (mkUuid 0 0 0 (repeat 0 8)) 0 0 0 0.

(** pf_cmrpc.c:2357-2450 pf_cmrpc_rm_release_ind: the connection that is released, and the response.
    [known]: pf_ar_find_by_uuid; [after]: the result of pf_cmdev_rm_release_ind; [st], [d]: rpc_result
    and ndr_data of the session. *)
Definition release_ind (be : bool) (known : uuid -> bool) (after : pnio) (fuel : nat) (st : pnio) (d : ndr) (r : rd) (w : wr)
  : outcome (option control * wr) :=
  do x <- control_rsp be 33044 st d control0 w;
  let '(d1, k1, w1) := x in
  do y <- (if negb (p_code st =? 0) then Ok (None, mkPnio 220 129 64 6, w1)
           else do z <- interpret release_kind fuel (d_args d1) (0, k1) r;
                match z with
                | (Some e, _) => Ok (None, e, w1)
                | (None, (_, k)) =>
                    if known (k_uuid k) then
                      do v <- control_rsp be 33044 st d1 k (mkWr (w_buf w1) (w_len w1) (w_pos w));
                      Ok (Some k, after, snd v)
                    else Ok (None, mkPnio 220 129 64 5, w1)
                end);
  let '(o, e, w2) := y in
  do w3 <- put_pnet_status be e (mkWr (w_buf w2) (w_len w2) (w_pos w));
  Ok (o, mkWr (w_buf w3) (w_len w3) (w_pos w1)).

(** pf_types.h:2079-2080: sequence number and result of the last DControl request of a session.
    pf_cmrpc.c:519-525, in pf_session_allocate: of a new session. *)
Record dsess := mkDsess { s_seq : Z; s_res : pnio }.
Definition dsess0 : dsess := mkDsess 4294967295 (mkPnio 0 0 0 0).

(** pf_cmrpc.c:2702-2784 pf_cmrpc_rm_dcontrol_ind: the block type and contents handed on, the session
    and the response.  [act]: the result of pf_plugsm_prmend_ind and pf_cmdev_rm_dcontrol_ind.  Not
    modelled: p_set_state_prmend. *)
Definition dcontrol_ind (be : bool) (known : uuid -> bool) (act : Z -> control -> pnio) (fuel : nat) (s : dsess) (seq : Z) (d : ndr) (r : rd) (w : wr)
  : outcome (option (Z * control) * dsess * wr) :=
  do z <- interpret dcontrol_kind fuel (d_args d) (0, control0) r;
  let '(v, (ty, k)) := z in
  let '(o, s', st') :=
    match v with
    | Some e => (None, s, e)
    | None =>
        if negb (s_seq s =? seq) then
          let '(o, e) := if known (k_uuid k) then (Some (ty, k), act ty k) else (None, mkPnio 221 129 64 5) in
          (o, mkDsess seq e, e)
        else (None, s, s_res s)
    end in
  do x <- control_rsp be (if ty =? 273 then 33041 else 33040) st' d k w;
  Ok (o, s', snd x).

(** pf_cmrpc.c:4012-4128 pf_cmrpc_rm_ccontrol_interpret_cnf (PF_BT_APPRDY_RES, PF_BT_APPRDY_PLUG_ALARM_RES,
    command done).  Simplified: a confirmation that is cut off has the code of a wrong length; the codes
    are not sent or told to the application. *)
Definition ccontrol_kind : refusals := mkRef [33042; 33043] 8 (mkPnio 221 129 64 1) (mkPnio 221 129 64 0) (mkPnio 221 129 64 6).

(** pf_cmrpc.c:4145-4225 pf_cmrpc_rm_ccontrol_cnf: the block type and contents handed on to
    pf_plugsm_application_ready_cnf or pf_cmdev_rm_ccontrol_cnf.  What these do is left out. *)
Definition ccontrol_cnf (fuel : nat) (d : ndr) (r : rd) : outcome (option (Z * control)) :=
  do z <- interpret ccontrol_kind fuel (d_args d) (0, control0) r;
  let '(v, (ty, k)) := z in
  Ok (match v with Some _ => None | None => if k_command k =? 8 then Some (ty, k) else None end).
