(** Model of the cyclic consumer: src/common/pf_cpm.c and
    src/common/pf_cpm_driver_sw.c, for one consumer CR.

    Simplifications: statistics counters (recv_cnt, free_cnt, errline, errcnt,
    max_exec) are left out; calls to other components are events; the optional
    hardware driver is not modelled; nbr_frame_id is 1 (pf_cpm.c:269). *)
From Coq Require Import List ZArith Arith Bool.
From Verif Require Import Base.
Import ListNotations.
Local Open Scope Z_scope.

(** pnal_buf_t: a received frame.  [b_id] is a ghost identity of the buffer,
    [b_fpos] is the position of the frame id found by pf_eth_recv. *)
Record buf := mkBuf { b_id : nat; b_data : list Z; b_fpos : Z }.

(** pf_types.h pf_cpm_state_values_t *)
Inductive cstate := CWStart | CFrun | CRun.

(** pf_types.h:1793-1835 pf_cpm_t, the fields that matter. *)
Record cpm := mkCpm {
  c_state : cstate;
  c_hold : Z;           (* data_hold_factor, uint16_t *)
  c_dht : Z;            (* dht, uint16_t *)
  c_cycle : Z;          (* cycle, int32_t, -1 means never *)
  c_status : Z;         (* data_status, uint8_t *)
  c_sa : list Z;        (* MAC address of the controller *)
  c_blen : Z;           (* buffer_length, uint16_t *)
  c_bpos : Z;           (* buffer_pos, uint16_t *)
  c_app : option buf;   (* p_buffer_app *)
  c_cpm : option buf;   (* p_buffer_cpm *)
  c_new : bool;         (* new_buf *)
  c_ci : bool           (* ci_running *)
}.

(** pf_types.h:1837-1861 pf_iodata_object_t, the layout of one sub-slot. *)
Record iodata := mkIodata {
  d_off : Z; d_len : Z;      (* data *)
  s_off : Z; s_len : Z;      (* IOPS *)
  k_off : Z; k_len : Z       (* IOCS *)
}.

(** Effects on other components. *)
Inductive cev :=
| CevStart                         (* pf_cpm_state_ind (start = true) *)
| CevStop                          (* pf_cpm_state_ind (start = false) *)
| CevNewData                       (* pf_cmio_cpm_new_data_ind (true) *)
| CevNoData                        (* pf_cmio_cpm_new_data_ind (false) *)
| CevStatus (changes status : Z)   (* pf_fspm_data_status_changed *)
| CevFree (id : nat)               (* pnal_buf_free *)
| CevArm                           (* control interval timer started *)
| CevError.                        (* pf_cmsu_cpm_error_ind *)

Definition set_state (c : cpm) (s : cstate) : cpm :=
  mkCpm s (c_hold c) (c_dht c) (c_cycle c) (c_status c) (c_sa c) (c_blen c)
    (c_bpos c) (c_app c) (c_cpm c) (c_new c) (c_ci c).

(** Access to byte [i] of a frame; outside the frame it is undefined. *)
Definition byte_at (l : list Z) (i : Z) : outcome Z :=
  if (0 <=? i) && (i <? Z.of_nat (length l)) then Ok (nth (Z.to_nat i) l 0) else Ub.

(** memcpy / memcmp source: [len] bytes from [off]. *)
Definition slice (l : list Z) (off len : Z) : outcome (list Z) :=
  if (0 <=? off) && (0 <=? len) && (off + len <=? Z.of_nat (length l))
  then Ok (firstn (Z.to_nat len) (skipn (Z.to_nat off) l)) else Ub.

Definition blist_eqb (a b : list Z) : bool :=
  if list_eq_dec Z.eq_dec a b then true else false.

(** pf_cpm.c:181-193 pf_cpm_check_cycle; true means 0 (accepted). *)
Definition check_cycle (prev now : Z) : bool :=
  let diff := u16 (now - u16 prev) in
  (1 <=? diff) && (diff <=? 61440).

(** pf_cpm.c:195-210 pf_cpm_check_src_addr; true means 0. *)
Definition check_src_addr (c : cpm) (f : buf) : outcome bool :=
  do s <- slice (b_data f) 6 6;
  Ok (blist_eqb (c_sa c) s).

(** pf_cpm.c:212-308 pf_cpm_activate_req together with
    pf_cpm_driver_sw.c:402-442 pf_cpm_driver_sw_activate_req.  [add_ok] is
    whether pf_scheduler_add succeeded.  Registration of the frame handler is
    in the Ethernet model. *)
Definition activate (c : cpm) (hold sdu_len : Z) (sa : list Z) (add_ok : bool)
  : cpm * list cev * Z :=
  match c_state c with
  | CWStart =>
    let pos := 2 * 6 + 2 + 2 in
    let c1 := mkCpm (c_state c) hold 0 (-1) 0 sa (u16 (pos + sdu_len + 2 + 1 + 1))
                pos (c_app c) (c_cpm c) (c_new c) (if add_ok then true else c_ci c) in
    if add_ok then (set_state c1 CFrun, [CevArm], 0)
    else (c1, [CevError], -1)
  | _ => (c, [], -1)
  end.

(** pf_cpm.c:236-239: the control interval in microseconds. *)
Definition control_interval (send_clock reduction : Z) : Z :=
  u32 (u32 (u32 (send_clock * reduction)) * 1000) / 32.

(** pf_cpm_driver_sw.c:46-116 pf_cpm_control_interval_expired. *)
Definition expired (c : cpm) (add_ok : bool) : cpm * list cev :=
  if c_ci c then
    let '(c1, ev) :=
      match c_state c with
      | CWStart => (c, [])
      | CFrun => (c, [])
      | CRun =>
        if c_hold c <=? c_dht c then
          (mkCpm CWStart (c_hold c) 0 (c_cycle c) (c_status c) (c_sa c) (c_blen c)
             (c_bpos c) (c_app c) (c_cpm c) (c_new c) false, [CevStop])
        else
          (mkCpm (c_state c) (c_hold c) (u16 (c_dht c + 1)) (c_cycle c) (c_status c)
             (c_sa c) (c_blen c) (c_bpos c) (c_app c) (c_cpm c) (c_new c) (c_ci c), [])
      end in
    if c_ci c1 then (c1, ev ++ [if add_ok then CevArm else CevError]) else (c1, ev)
  else (c, []).

(** pf_cpm_driver_sw.c:184-194 pf_cpm_put_buf; returns the previous buffer. *)
Definition put_buf (c : cpm) (b : buf) : cpm * option buf :=
  (mkCpm (c_state c) (c_hold c) (c_dht c) (c_cycle c) (c_status c) (c_sa c) (c_blen c)
     (c_bpos c) (c_app c) (Some b) true (c_ci c), c_cpm c).

(** pf_cpm_driver_sw.c:213-226: the critical section of pf_cpm_get_buf. *)
Definition get_buf (c : cpm) : cpm * bool :=
  if c_new c then
    (mkCpm (c_state c) (c_hold c) (c_dht c) (c_cycle c) (c_status c) (c_sa c) (c_blen c)
       (c_bpos c) (c_cpm c) (c_app c) false (c_ci c), true)
  else (c, false).

(** pf_cpm_driver_sw.c:228-236: the pointer to the data, or NULL. *)
Definition buf_ptr (c : cpm) : option (buf * Z) :=
  match c_app c with Some b => Some (b, c_bpos c) | None => None end.

(** pf_cpm_driver_sw.c:257-400 pf_cpm_c_data_ind, first part: lines 282-347.
    [Done]: the function has finished.  [Put old]: put_buf has been called, the
    remaining assignments follow in [data_ind_2]. *)
Inductive rx1 :=
| RxDone (c : cpm) (ev : list cev)
| RxPut (c : cpm) (ev : list cev) (old : option buf) (cycle status : Z).

Definition data_ind_1 (c : cpm) (f : buf) : outcome rx1 :=
  match c_state c with
  | CWStart => Ok (RxDone c [CevFree (b_id f)])
  | _ =>
    let n := Z.of_nat (length (b_data f)) in
    let pos := u16 (n - 4) in
    do hi <- byte_at (b_data f) pos;
    do lo <- byte_at (b_data f) (pos + 1);
    do ds <- byte_at (b_data f) (pos + 2);
    do ts <- byte_at (b_data f) (pos + 3);
    let cycle := u16 (hi * 256 + lo) in
    let data_valid := negb (Z.land ds 4 =? 0) in
    let backup := Z.land ds 1 =? 0 in
    let primary := negb (Z.land ds 1 =? 0) in
    let len := u16 (u16 (n - b_fpos f) + (2 * 6 + 2)) in
    do sa_ok <- check_src_addr c f;
    let frame_structure := (ts =? 0) && sa_ok && (len =? c_blen c) in
    let c_sdu_structure := check_cycle (c_cycle c) cycle in
    let dht_reload := frame_structure && c_sdu_structure && (data_valid || backup) in
    let update_data := frame_structure && c_sdu_structure && data_valid && (primary || backup) in
    if negb data_valid then Ok (RxDone c [CevFree (b_id f)])
    else if dht_reload then
      let ev0 := match c_state c with CFrun => [CevStart] | _ => [] end in
      if update_data then
        let '(c1, old) := put_buf c f in
        Ok (RxPut c1 ev0 old cycle ds)
      else
        (* not reachable: data_valid and (primary or backup) always hold here;
           kept as in the code, the second part is inlined *)
        Ok (RxDone (mkCpm CRun (c_hold c) 0 cycle ds (c_sa c) (c_blen c) (c_bpos c)
                      (c_app c) (c_cpm c) (c_new c) (c_ci c))
             (ev0 ++ [CevNoData] ++
              (if Z.lxor (c_status c) ds =? 0 then [] else [CevStatus (Z.lxor (c_status c) ds) ds])
              ++ [CevFree (b_id f)]))
    else Ok (RxDone c [CevFree (b_id f)])
  end.

(** Second part: lines 348-397 (after the mutex has been released). *)
Definition data_ind_2 (c : cpm) (fpos : Z) (old : option buf) (cycle status : Z)
  : cpm * list cev :=
  (mkCpm CRun (c_hold c) 0 cycle status (c_sa c) (c_blen c) (u16 (fpos + 2))
     (c_app c) (c_cpm c) (c_new c) (c_ci c),
   [CevNewData] ++
   (if Z.lxor (c_status c) status =? 0 then [] else [CevStatus (Z.lxor (c_status c) status) status])
   ++ match old with Some b => [CevFree (b_id b)] | None => [] end).

(** The whole of pf_cpm_c_data_ind, when not interrupted. *)
Definition data_ind (c : cpm) (f : buf) : outcome (cpm * list cev) :=
  do r <- data_ind_1 c f;
  match r with
  | RxDone c1 ev => Ok (c1, ev)
  | RxPut c1 ev old cycle status =>
      let '(c2, ev2) := data_ind_2 c1 (b_fpos f) old cycle status in Ok (c2, ev ++ ev2)
  end.

(** Result of the read functions. *)
Record rdres := mkRd { r_ret : Z; r_new : bool; r_data : list Z; r_iops : list Z }.
Definition rd_fail : rdres := mkRd (-1) false [] [].

(** pf_cpm_driver_sw.c:461-488: copying out of the buffer. *)
Definition copy_out (p : option (buf * Z)) (d : iodata) (new : bool) : outcome rdres :=
  match p with
  | None => Ok rd_fail
  | Some (b, pos) =>
      do x <- slice (b_data b) (pos + d_off d) (d_len d);
      do y <- slice (b_data b) (pos + s_off d) (s_len d);
      Ok (mkRd 0 new x y)
  end.

(** pf_cpm.c:398-499 pf_cpm_get_data_and_iops (for the descriptor found by
    pf_cpm_get_ar_iocr_desc) with pf_cpm_driver_sw.c:444-491.  [dlen] and
    [slen] are the sizes of the caller's buffers. *)
Definition get_data_and_iops (c : cpm) (d : iodata) (dlen slen : Z)
  : outcome (cpm * rdres) :=
  match c_state c with
  | CWStart => Ok (c, rd_fail)
  | _ =>
    if (dlen <? d_len d) || (slen <? s_len d) then Ok (c, rd_fail)
    else
      let '(c1, new) := get_buf c in
      do r <- copy_out (buf_ptr c1) d new;
      Ok (c1, r)
  end.

(** pf_cpm.c:501-584 pf_cpm_get_iocs with pf_cpm_driver_sw.c:493-515. *)
Definition get_iocs (c : cpm) (d : iodata) (klen : Z) : outcome (cpm * (Z * list Z)) :=
  match c_state c with
  | CWStart => Ok (c, (-1, []))
  | _ =>
    if (klen <? k_len d) || (k_len d =? 0) then Ok (c, (-1, []))
    else
      let '(c1, _) := get_buf c in
      match buf_ptr c1 with
      | None => Ok (c1, (-1, []))
      | Some (b, pos) =>
          do x <- slice (b_data b) (pos + k_off d) (k_len d);
          Ok (c1, (0, x))
      end
  end.

(** pf_cpm.c:586-591 pf_cpm_get_data_status. *)
Definition get_data_status (c : cpm) : Z := c_status c.

(** pf_cpm.c:149-179 pf_cpm_close_req with pf_cpm_driver_sw.c:149-174.  The
    buffer pointers are not cleared by the code. *)
Definition close_req (c : cpm) : cpm * list cev :=
  (mkCpm CWStart (c_hold c) (c_dht c) (c_cycle c) (c_status c) (c_sa c) (c_blen c)
     (c_bpos c) (c_app c) (c_cpm c) (c_new c) false,
   match c_cpm c with Some b => [CevFree (b_id b)] | None => [] end ++
   match c_app c with Some b => [CevFree (b_id b)] | None => [] end).

(** A fresh AR (pf_cmrpc.c:790 memset). *)
Definition cpm0 : cpm := mkCpm CWStart 0 0 0 0 [] 0 0 None None false false.

(** ** Sequential histories *)
Inductive cop :=
| OFrame (f : buf)
| OExpire (add_ok : bool)
| ORead (d : iodata) (dlen slen : Z)
| OIocs (d : iodata) (klen : Z).

(** What each operation showed. *)
Inductive cobs :=
| BFrame (f : buf) (accepted : bool)
| BExpire (stopped : bool)
| BRead (d : iodata) (r : rdres)
| BIocs (r : Z * list Z).

Definition has_newdata (ev : list cev) : bool :=
  existsb (fun e => match e with CevNewData => true | _ => false end) ev.
Definition has_stop (ev : list cev) : bool :=
  existsb (fun e => match e with CevStop => true | _ => false end) ev.

Definition cstep (c : cpm) (o : cop) : outcome (cpm * cobs) :=
  match o with
  | OFrame f => do r <- data_ind c f; Ok (fst r, BFrame f (has_newdata (snd r)))
  | OExpire ok => let r := expired c ok in Ok (fst r, BExpire (has_stop (snd r)))
  | ORead d dl sl => do r <- get_data_and_iops c d dl sl; Ok (fst r, BRead d (snd r))
  | OIocs d kl => do r <- get_iocs c d kl; Ok (fst r, BIocs (snd r))
  end.

(** Runs a list of operations; the observations are newest first. *)
Fixpoint crun (c : cpm) (h : list cobs) (ops : list cop) : outcome (cpm * list cobs) :=
  match ops with
  | [] => Ok (c, h)
  | o :: ops' => do r <- cstep c o; crun (fst r) (snd r :: h) ops'
  end.

(** ** Concurrent executions: the receiving thread, the timer, and any number of
    application threads (numbered) that call pnet_output_get_data_and_iops *)
Inductive rxpc :=
| RxIdle
| RxMid (fpos : Z) (old : option buf) (cycle status : Z).

Inductive rdpc :=
| RdIdle
| RdGot (d : iodata) (new : bool)                    (* after line 226 *)
| RdPtr (d : iodata) (new : bool) (p : option (buf * Z)).  (* after line 236 *)

Record csys := mkCsys {
  z_cpm : cpm;
  z_rx : rxpc;
  z_rd : nat -> rdpc;         (* per application thread *)
  z_freed : list nat;
  z_recv : list nat;          (* ghost: identities of received buffers *)
  z_acc : list buf;           (* ghost: accepted frames, newest first *)
  z_src : nat -> option buf;  (* ghost: newest accepted frame when the read began *)
  z_out : list (iodata * option buf * rdres)   (* finished reads, newest first *)
}.

Inductive clab :=
| KRx1 (f : buf) | KRx2
| KExpire (add_ok : bool)
| KRd1 (t : nat) (d : iodata) (dlen slen : Z) | KRd2 (t : nat) | KRd3 (t : nat).

Definition freed_ids (ev : list cev) : list nat :=
  flat_map (fun e => match e with CevFree i => [i] | _ => [] end) ev.

Definition zstep (z : csys) (l : clab) : outcome csys :=
  match l with
  | KRx1 f =>
    match z_rx z with
    | RxIdle =>
      do r <- data_ind_1 (z_cpm z) f;
      match r with
      | RxDone c ev =>
          Ok (mkCsys c RxIdle (z_rd z) (freed_ids ev ++ z_freed z) (b_id f :: z_recv z)
                (z_acc z) (z_src z) (z_out z))
      | RxPut c ev old cy st =>
          Ok (mkCsys c (RxMid (b_fpos f) old cy st) (z_rd z) (freed_ids ev ++ z_freed z)
                (b_id f :: z_recv z) (f :: z_acc z) (z_src z) (z_out z))
      end
    | _ => Ok z
    end
  | KRx2 =>
    match z_rx z with
    | RxMid fpos old cy st =>
        let '(c, ev) := data_ind_2 (z_cpm z) fpos old cy st in
        Ok (mkCsys c RxIdle (z_rd z) (freed_ids ev ++ z_freed z) (z_recv z)
              (z_acc z) (z_src z) (z_out z))
    | RxIdle => Ok z
    end
  | KExpire ok =>
      Ok (mkCsys (fst (expired (z_cpm z) ok)) (z_rx z) (z_rd z) (z_freed z) (z_recv z)
            (z_acc z) (z_src z) (z_out z))
  | KRd1 t d dl sl =>
    match z_rd z t with
    | RdIdle =>
      match c_state (z_cpm z) with
      | CWStart => Ok z
      | _ =>
        if (dl <? d_len d) || (sl <? s_len d) then Ok z
        else
          let '(c, new) := get_buf (z_cpm z) in
          Ok (mkCsys c (z_rx z) (upd (z_rd z) t (RdGot d new)) (z_freed z) (z_recv z) (z_acc z)
                (upd (z_src z) t (hd_error (z_acc z))) (z_out z))
      end
    | _ => Ok z
    end
  | KRd2 t =>
    match z_rd z t with
    | RdGot d new =>
        Ok (mkCsys (z_cpm z) (z_rx z) (upd (z_rd z) t (RdPtr d new (buf_ptr (z_cpm z))))
              (z_freed z) (z_recv z) (z_acc z) (z_src z) (z_out z))
    | _ => Ok z
    end
  | KRd3 t =>
    match z_rd z t with
    | RdPtr d new p =>
        (* reading a freed buffer is undefined *)
        if match p with
           | Some (b, _) => existsb (Nat.eqb (b_id b)) (z_freed z)
           | None => false
           end then Ub
        else
          do r <- copy_out p d new;
          Ok (mkCsys (z_cpm z) (z_rx z) (upd (z_rd z) t RdIdle) (z_freed z) (z_recv z)
                (z_acc z) (z_src z) ((d, z_src z t, r) :: z_out z))
    | _ => Ok z
    end
  end.

Fixpoint zrun (z : csys) (ls : list clab) : outcome csys :=
  match ls with
  | [] => Ok z
  | l :: ls' => do z' <- zstep z l; zrun z' ls'
  end.

Definition csys0 (c : cpm) : csys :=
  mkCsys c RxIdle (fun _ => RdIdle) [] [] [] (fun _ => None) [].
