(** Model of reading and writing data records: pf_cmrpc_rm_write_ind and
    pf_cmrpc_rm_read_ind in src/device/pf_cmrpc.c, src/device/pf_cmwrr.c and
    src/device/pf_cmrdr.c. *)
From Coq Require Import List ZArith Arith Bool.
From Verif Require Import Base CpmModel BlockModel FspmModel.
Import ListNotations.
Local Open Scope Z_scope.

(** pnet_api.h pnet_result_t: status and additional data. *)
Record rstat := mkStat { t_pnio : pnio; t_add1 : Z; t_add2 : Z }.
Definition pnio0 : pnio := mkPnio 0 0 0 0.
Definition stat0 : rstat := mkStat pnio0 0 0.

(** pf_cmrpc.c:872-907 pf_set_error and 909-952 pf_set_error_if_not_already_set. *)
Definition set_error (s : rstat) (a b c d : Z) : rstat := mkStat (mkPnio a b c d) (t_add1 s) (t_add2 s).
Definition set_error_once (s : rstat) (a b c d : Z) : rstat :=
  if (p_code (t_pnio s) =? 0) && (p_decode (t_pnio s) =? 0) then set_error s a b c d else s.

(** * Writing *)

(** pf_types.h pf_cmwrr_state_values_t. *)
Inductive wstate := WIdle | WStartup | WPrmend | WData.

(** The rest of the device during a write: everything the handlers ask for, and the
    application (with the handlers of I&M and port data) as an arbitrary state
    machine.  [a_ar]: pf_ar_find_by_uuid; [a_api]: pf_cmdev_get_api finds the API;
    [a_state], [a_backup]: cmwrr_state and ar_state of the connection; [a_foreign]:
    the submodule exists and is not owned by the connection (pf_cmwrr.c:203-212);
    [a_write]: pf_fspm_cm_write_ind or pf_pdport_write_req with the bytes at
    p_write_data, write_length of them: new state, whether 0 is returned, the result. *)
Record device (A : Type) := mkDev {
  a_ar : A -> uuid -> option Z;
  a_api : A -> Z -> bool;
  a_state : A -> Z -> wstate;
  a_backup : A -> Z -> bool;
  a_foreign : A -> Z -> rwreq -> bool;
  a_write : A -> Z -> rwreq -> list Z -> rstat -> A * bool * rstat }.
Arguments a_ar {A}. Arguments a_api {A}. Arguments a_state {A}. Arguments a_backup {A}. Arguments a_foreign {A}. Arguments a_write {A}.

(** pf_types.h:2421-2435 pf_iod_write_result_t. *)
Record wresult := mkWres { x_req : rwreq; x_add1 : Z; x_add2 : Z; x_pnio : pnio }.
Definition uuid0 : uuid := mkUuid 0 0 0 (repeat 0 8).
Definition rwreq0 : rwreq := mkRwreq 0 uuid0 0 0 0 0 0.
Definition wresult0 : wresult := mkWres rwreq0 0 0 pnio0.

(** Indexes whose data are handed over: pf_cmwrr.c:219-259. *)
Definition handed (ix : Z) : bool :=
  (ix <=? 32767) || ((ix_im0 <=? ix) && (ix <=? ix_im15)) || (ix =? 32811) || (ix =? 32815) || (ix =? 32881).

(** pf_cmwrr.c:173-297 pf_cmwrr_write: state, whether 0 is returned, *p_result and the
    new position.  [b] are the bytes received: handing over others is Ub.  (p_buf
    may be larger than the data received; the bytes behind them are not part of the
    request.) *)
Definition cmwrr_write {A} (dv : device A) (a : A) (ar : Z) (q : rwreq) (b : list Z) (len pos : Z) (st : rstat)
  : outcome (A * bool * rstat * Z) :=
  let pos' := u16 (pos + len) in
  if a_foreign dv a ar q then Ok (a, false, mkStat (write_error err_denied) (t_add1 st) (t_add2 st), pos')
  else if handed (q_index q) then
    do d <- slice b pos len;
    let '(a', ok, st') := a_write dv a ar q d st in Ok (a', ok, st', pos')
  else Ok (a, false, st, pos').

(** pf_cmwrr.c:299-381 pf_cmwrr_rm_write_ind; data_length is uint16_t.  The error code 2
    is left as it was.  pf_cmsm_cm_write_ind (restart of a timer) returns 0. *)
Definition cmwrr_rm_write {A} (dv : device A) (a : A) (ar : Z) (q : rwreq) (x : wresult) (b : list Z) (len pos : Z) (st : rstat)
  : outcome (A * bool * rstat * wresult * Z) :=
  let n := u16 len in
  let refuse c1 := Ok (a, false, mkStat (mkPnio 129 128 c1 (p_code2 (t_pnio st))) (t_add1 st) (t_add2 st), pos) in
  do y <- match a_state dv a ar with
          | WIdle | WPrmend => refuse 181
          | WStartup | WData => if a_backup dv a ar then refuse 186 else cmwrr_write dv a ar q b n pos st
          end;
  let '(a', ok, st', pos') := y in
  Ok (a', ok, st', mkWres (mkRwreq (q_seq q) (q_uuid q) (q_api q) (q_slot q) (q_subslot q) (q_index q) 0) (t_add1 st') (t_add2 st') (x_pnio x), pos').

(** pf_cmrpc.c:3159-3203 pf_cmrpc_rm_write_interpret_ind: whether 0 is returned, the
    request (the former one is kept for a block PF_BT_INTERFACE_ADJUST) and the
    status. *)
Definition write_interpret (old : rwreq) (st : rstat) : reader (bool * rwreq * rstat) := fun r =>
  if r_pos r + 6 <=? r_len r then
    (rdo h <- get_block_header;
     fun r' =>
       if (r_pos r' + b_length h + 4 - 6 <=? r_len r') && is_ok (r_res r') then
         if b_type h =? 8 then (rdo q <- get_write_request (u_d4 (q_uuid old)); rret (true, q, st)) r'
         else if b_type h =? 592 then Ok ((true, old, st), r')
         else Ok ((false, old, set_error st 223 129 8 1), r')
       else Ok ((false, old, st), r')) r
  else Ok ((false, old, st), r).

(** pf_cmrpc.c:3220-3336 pf_cmrpc_perform_one_write.  [received r]: the bytes of the
    request.  The flag kill_session is left out. *)
Definition received (r : rd) : list Z :=
  match r_buf r with Some b => firstn (Z.to_nat (r_len r)) b | None => [] end.
Definition one_write {A} (dv : device A) (a : A) (q : rwreq) (x : wresult) (st : rstat) (r : rd)
  : outcome (A * bool * rstat * wresult * rd) :=
  do y <-
    match a_ar dv a (q_uuid q) with
    | None => Ok (a, false, set_error st 223 129 64 5, x, r)
    | Some ar =>
      if negb (q_api q =? 0) && negb (a_api dv a (q_api q)) then Ok (a, false, set_error st 223 128 180 1, x, r)
      else if u32 (r_pos r + q_len q) <=? r_len r then
        if q_index q <=? 32767 then
          do z <- cmwrr_rm_write dv a ar q x (received r) (q_len q) (r_pos r) st;
          let '(a', ok, st', x', pos') := z in
          Ok (a', ok, if ok then st' else set_error_once st' 223 128 180 2, x', set_pos r pos')
        else
          do h <- get_block_header r;
          let '(_, r') := h in
          do z <- cmwrr_rm_write dv a ar q x (received r') (u32 (q_len q - 6)) (r_pos r') st;
          let '(a', ok, st', x', pos') := z in
          Ok (a', ok, if ok then st' else set_error_once st' 223 128 180 2, x', set_pos r' pos')
      else Ok (a, false, set_error st 223 128 180 4, x, r)
    end;
  let '(a', ok, st', x', r') := y in
  Ok (a', ok, st', if ok then x' else mkWres (x_req x') (x_add1 x') (x_add2 x') (t_pnio st'), r').

(** pf_cmrpc.c:3499-3503: alignment of the uint16_t position. *)
Definition align4 (p : Z) : Z := u16 ((p + 3) / 4 * 4).

(** pf_cmrpc.c:3470-3507: the loop of the multiple write; [q], [x] and [st] are the
    variables write_request_multi, write_result_multi and write_stat_multi, [ok] is
    ret == 0.  None: not finished after [fuel] records.  The results come in the
    order of the answer. *)
Fixpoint multi {A} (fuel : nat) (dv : device A) (a : A) (q : rwreq) (x : wresult) (st : rstat) (ok : bool) (r : rd)
  : option (outcome (A * bool * list wresult * rd)) :=
  if (r_pos r + 58 <? r_len r) && (p_code (x_pnio x) =? 0) then
    match write_interpret q st r with
    | Ub => Some Ub
    | AssertFail => Some AssertFail
    | Ok ((false, _, _), r1) => Some (Ok (a, ok, [], r1))
    | Ok ((true, q1, st1), r1) =>
      match fuel with
      | O => None
      | S k =>
        match one_write dv a q1 x st1 r1 with
        | Ub => Some Ub
        | AssertFail => Some AssertFail
        | Ok (a2, ok2, _, x2, r2) =>
          match multi k dv a2 q1 x2 stat0 ok2 (set_pos r2 (align4 (r_pos r2))) with
          | Some (Ok (a3, ok3, l, r3)) => Some (Ok (a3, ok3, x2 :: l, r3))
          | o => o
          end
        end
      end
    end
  else Some (Ok (a, ok, [], r)).

(** What a write request leads to: new state, return value 0, rpc_result, the result
    blocks of the answer. *)
Definition wanswer (A : Type) := (A * bool * rstat * list wresult)%type.

(** pf_cmrpc.c:3355-3608 pf_cmrpc_rm_write_ind.  [args]: ndr_data.args_length; [st]:
    rpc_result before.  The bytes of the answer are those of pf_put_write_result for
    each result (C28_write_result) after the status and the NDR header; cutting the
    answer to the size of the buffer is left out. *)
Definition write_ind {A} (fuel : nat) (dv : device A) (a : A) (args : Z) (st : rstat) (r : rd) : option (outcome (wanswer A)) :=
  match write_interpret rwreq0 st r with
  | Ub => Some Ub
  | AssertFail => Some AssertFail
  | Ok ((ok, q, st1), r1) =>
    if is_ok (r_res r1) then
      let x := mkWres (mkRwreq (q_seq q) (q_uuid q) (q_api q) (q_slot q) (q_subslot q) (q_index q) 0) 0 0 (t_pnio st1) in
      let finish (a : A) (ok : bool) (st : rstat) (l : list wresult) (r' : rd) : wanswer A :=
        if ok then
          if is_ok (r_res r') then
            if u32 (r_pos r' - r_pos r) =? args then (a, true, st, l) else (a, false, set_error st 223 129 64 0, l)
          else (a, false, set_error st 223 129 64 0, l)
        else (a, false, st, l) in
      if negb ok then Some (Ok (a, false, st1, []))
      else if q_index q =? 57408 then
        match multi fuel dv a rwreq0 wresult0 stat0 true r1 with
        | None => None
        | Some Ub => Some Ub
        | Some AssertFail => Some AssertFail
        | Some (Ok (a', ok', l, r')) => Some (Ok (finish a' (ok' && (r_pos r' =? r_len r')) st1 (x :: l) r'))
        end
      else
        match one_write dv a q x st1 r1 with
        | Ub => Some Ub
        | AssertFail => Some AssertFail
        | Ok (a', ok', st', x', r') => Some (Ok (finish a' ok' st' [x'] r'))
        end
    else Some (Ok (a, false, st1, []))
  end.

(** * Reading *)

(** What the application answers to pnet_read_ind: whether 0 is returned, the bytes at
    pp_read_data, p_read_length of them, and the status. *)
Record ranswer := mkRans { v_ok : bool; v_data : list Z; v_stat : rstat }.

(** The rest of the device during a read.  [d_cb]: the application's callback (None: not
    set), given the request, the number of the connection and the length offered;
    [d_other]: the cases of pf_cmrdr.c:153-814 other than I&M1 to I&M4 and the log
    book: whether 0 is set, and what is written. *)
Record rdevice := mkRdev {
  d_cb : option (rwreq -> Z -> Z -> ranswer);
  d_sup : Z;
  d_im : im;
  d_book : book;
  d_other : rwreq -> wr -> bool * writer }.

(** pf_block_writer.c:1579-1630 pf_put_read_result, with the position of the length.
    The record length is 0 here. *)
Definition put_read_result (q : rwreq) (add1 add2 : Z) : wr -> outcome (wr * Z) := fun w =>
  do w1 <- (put_block_header true 32777 0 1 0 ;; put_u16 true (q_seq q) ;; put_uuid true (q_uuid q) ;; put_u32 true (q_api q) ;;
            put_u16 true (q_slot q) ;; put_u16 true (q_subslot q) ;; put_byte 0 ;; put_byte 0 ;; put_u16 true (q_index q)) w;
  do w2 <- (put_u32 true 0 ;; put_u16 true add1 ;; put_u16 true add2 ;; put_padding 20 ;; put_block_len true (w_pos w)) w1;
  Ok (w2, w_pos w1).

(** pf_fspm.c:659-846 pf_fspm_cm_read_ind for user records.  [ar]: arep of the connection,
    None: p_ar is NULL and p_ar->arep is read. *)
Definition fspm_read_user (dv : rdevice) (ar : option Z) (q : rwreq) (offered : Z) (st : rstat) : outcome ranswer :=
  match d_cb dv with
  | None => Ok (mkRans false [] (mkStat (mkPnio 222 128 169 0) (t_add1 st) (t_add2 st)))
  | Some cb => match ar with Some n => Ok (cb q n offered) | None => Ub end
  end.

(** pf_cmrdr.c:39-850 pf_cmrdr_rm_read_ind.  The writer is at the place of the answer
    block.  pf_cmsm_cm_read_ind (restart of a timer) returns 0. *)
Definition read_ind (dv : rdevice) (ar : option Z) (q : rwreq) (st : rstat) (w : wr) : outcome (wr * rstat) :=
  let ix := q_index q in
  let user := ix <=? 32767 in
  do an <- (if user then fspm_read_user dv ar q (u16 (w_len w - w_pos w)) st else Ok (mkRans true [] st));
  let data := if v_ok an then v_data an else [] in
  do h <- put_read_result q (t_add1 (v_stat an)) (t_add2 (v_stat an)) w;
  let '(w1, lpos) := h in
  do y <-
    (if user then
       if w_pos w1 + Z.of_nat (length data) <=? w_len w1
       then do w2 <- put_mem data w1; Ok (true, w2)
       else Ok (false, w1)
     else if (ix_im0 <? ix) && (ix <=? ix_im0 + 4) then
       let k := ix - ix_im0 in
       let n := im_length (d_sup dv) k in
       if negb (n =? 0) && (w_pos w1 + n <? w_len w1) then do w2 <- put_im (d_im dv) k w1; Ok (true, w2)
       else Ok (false, w1)
     else if ix =? 63536 then
       match put_log_book true (d_book dv) with Some f => do w2 <- f w1; Ok (true, w2) | None => Ub end
     else
       let '(ok, f) := d_other dv q w1 in do w2 <- f w1; Ok (ok, w2));
  let '(ok, w2) := y in
  let st' := if ok then v_stat an else mkStat (mkPnio 222 128 176 10) (t_add1 (v_stat an)) (t_add2 (v_stat an)) in
  do w3 <- put_u32 true (u16 (w_pos w2) - u16 (w_pos w1)) (mkWr (w_buf w2) (w_len w2) lpos);
  Ok (mkWr (w_buf w3) (w_len w3) (w_pos w2), st').

(** pf_cmrpc.c:2935-2981 in pf_cmrpc_rm_read_ind: the connection a read is executed for
    (None: p_ar is NULL), or the error.  [find]: pf_ar_find_by_uuid; [api]: the API
    exists; [u] and [target]: ar_uuid and target_ar_uuid of the request. *)
Definition uuid_zero (u : uuid) : bool :=
  (u_d1 u =? 0) && (u_d2 u =? 0) && (u_d3 u =? 0) && forallb (fun x => x =? 0) (u_d4 u).
Definition read_ar (find : uuid -> option Z) (api : Z -> bool) (implicit : bool) (q : rwreq) (target : uuid) : option Z + pnio :=
  if uuid_zero (q_uuid q) && negb implicit then inr (mkPnio 222 129 8 5)
  else match find (q_uuid q) with
       | Some n =>
         if implicit then inr (mkPnio 222 129 64 5)
         else if negb (q_api q =? 0) && negb (api (q_api q)) then inr (mkPnio 222 128 180 6)
         else inl (Some n)
       | None =>
         if negb (q_api q =? 0) && negb (api (q_api q)) then inr (mkPnio 222 128 180 6)
         else inl (if implicit then find target else None)
       end.

(** The read of a record as requested: pf_cmrpc.c:2908-3088 pf_cmrpc_rm_read_ind around
    pf_cmrdr_rm_read_ind; the status and the NDR header in front of the answer are
    left out. *)
Definition read_rpc (find : uuid -> option Z) (api : Z -> bool) (implicit : bool) (dv : rdevice) (q : rwreq) (target : uuid) (w : wr)
  : outcome (option wr * rstat) :=
  match read_ar find api implicit q target with
  | inr e => Ok (None, mkStat e 0 0)
  | inl ar => do x <- read_ind dv ar q stat0 w; let '(w', st) := x in Ok (Some w', st)
  end.
