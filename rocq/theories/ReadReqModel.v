(** Model of what stands around the record in a read: src/device/pf_cmrpc.c. *)
From Coq Require Import List ZArith Arith Bool.
From Verif Require Import Base BlockModel ConnRspModel.
From Verif Require RecordModel.
Import ListNotations.
Local Open Scope Z_scope.

(** pf_cmrpc.c:2796-2885 pf_cmrpc_rm_read_interpret_ind: the request and the UUID of the target, or the result
    that is left in the session.  [st]: that result before; [args]: args_length in the session. *)
Definition read_interpret (st : pnio) (args : Z) (r : rd) : outcome (rwreq * uuid + pnio) :=
  if (r_pos r + 6 <=? r_len r) && is_ok (r_res r) then
    do x <- get_block_header r;
    let '(h, r1) := x in
    if (r_pos r1 + b_length h + 4 - 6 <=? r_len r1) && is_ok (r_res r1) then
      if b_type h =? 9 then
        do y <- get_read_request (repeat 0 8) (repeat 0 8) r1;
        let '(q, r2) := y in
        Ok (if is_ok (r_res r2) then
              if negb (r_pos r2 =? r_len r2) then inr (mkPnio 222 129 64 0)
              else if negb (u32 (r_pos r2 - r_pos r) =? args) then inr (mkPnio 222 129 64 0)
              else inl q
            else inr (mkPnio 222 129 64 0))
      else Ok (inr (mkPnio 222 129 8 1))
    else Ok (inr st)
  else Ok (inr st).

(** pf_cmrpc.c:2908-3088 pf_cmrpc_rm_read_ind: the read that is executed (for which connection), the result
    in the session and the response.  [find], [api], [implicit]: as in RecordModel.read_ar; [body]:
    pf_cmrdr_rm_read_ind, the response it writes and its result.  Not modelled: pf_cmsm_rm_read_ind,
    kill_session (RpcModel.v). *)
Definition read_ind (be : bool) (find : uuid -> option Z) (api : Z -> bool) (implicit : bool)
    (body : option Z -> rwreq -> wr -> outcome (wr * pnio)) (st : pnio) (d : ndr) (r : rd) (w : wr)
  : outcome (option (option Z * rwreq) * pnio * wr) :=
  if negb (p_code st =? 0) then Ok (None, mkPnio 222 129 64 6, w)
  else
    do x <- read_interpret st (d_args d) r;
    match x with
    | inr e => Ok (None, e, w)
    | inl (q, t) =>
        match RecordModel.read_ar find api implicit q t with
        | inr e => Ok (None, e, w)
        | inl ar =>
            do w1 <- put_pnet_status be st w;
            do w2 <- put_ndr be d w1;
            do y <- body ar q w2;
            let '(w3, e) := y in
            do w4 <- put_pnet_status be e (mkWr (w_buf w3) (w_len w3) (w_pos w));
            let n := u32 (w_pos w3 - w_pos w2) in
            do w5 <- put_ndr be (mkNdr n (d_max d) (d_offset d) n) (mkWr (w_buf w4) (w_len w4) (w_pos w1));
            Ok (Some (ar, q), e, mkWr (w_buf w5) (w_len w5) (w_pos w3))
        end
    end.
