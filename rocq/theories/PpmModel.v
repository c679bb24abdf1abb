(** Model of the cyclic producer: src/common/pf_ppm.c and
    src/common/pf_ppm_driver_sw.c, for one provider CR (iocr).

    Simplifications: logging and the show functions are left out; calls of the
    Ethernet driver, the scheduler and CMSU are events with their results as
    inputs; only the software driver is modelled; the mutex ppm_buf_lock makes
    each buffer access atomic, so operations are atomic steps here. *)
From Coq Require Import List ZArith Arith Bool.
From Verif Require Import Base CpmModel.
Import ListNotations.
Local Open Scope Z_scope.

(** memcpy into an array of bytes; outside the array it is undefined. *)
Definition poke (l : list Z) (off : Z) (bs : list Z) : outcome (list Z) :=
  if (0 <=? off) && (off + Z.of_nat (length bs) <=? Z.of_nat (length l))
  then Ok (firstn (Z.to_nat off) l ++ bs ++ skipn (Z.to_nat off + length bs) l)
  else Ub.

(** htons followed by memcpy: two bytes, most significant first. *)
Definition be16 (x : Z) : list Z := [u16 x / 256; u16 x mod 256].

(** pf_types.h PF_FRAME_BUFFER_SIZE *)
Definition frame_buffer_size : Z := 1500.

Inductive pstate := PWStart | PRun.

(** pf_types.h:1748-1790 pf_ppm_t *)
Record ppm := mkPpm {
  p_state : pstate;
  p_next : Z;            (* next_exec, uint32_t *)
  p_sa : list Z; p_da : list Z;
  p_first : bool;        (* first_transmit *)
  p_send : list Z;       (* payload of p_send_buffer (its whole capacity) *)
  p_slen : Z;            (* p_send_buffer->len *)
  p_alloc : bool;        (* the send buffer is allocated *)
  p_cycle : Z;
  p_tstat : Z; p_dstat : Z;
  p_blen : Z; p_bpos : Z; p_coff : Z; p_doff : Z; p_toff : Z;
  p_image : list Z;      (* buffer_data *)
  p_trx : Z;
  p_scf : Z; p_rr : Z; p_int : Z;   (* send_clock_factor, reduction_ratio, control_interval *)
  p_ci : bool            (* ci_running *)
}.

(** pf_types.h:1863-1888 pf_iocr_t: the parameters of the connect request that
    matter here, the sub-slot layout, and the producer. *)
Record iocr := mkIocr {
  o_input : bool;             (* iocr_type is INPUT or MC_PROVIDER *)
  o_sdu : Z;                  (* param.c_sdu_length *)
  o_scf : Z; o_rr : Z;        (* param.send_clock_factor, reduction_ratio *)
  o_fid : Z;                  (* param.frame_id *)
  o_vid : Z; o_prio : Z;      (* param.iocr_tag_header *)
  o_sa : list Z; o_da : list Z;   (* responder and initiator MAC address *)
  o_inlen : Z;                (* in_length *)
  o_desc : list (Z * Z * Z * iodata);   (* api, slot, subslot; in_use entries *)
  o_ppm : ppm
}.

Definition set_ppm (o : iocr) (p : ppm) : iocr :=
  mkIocr (o_input o) (o_sdu o) (o_scf o) (o_rr o) (o_fid o) (o_vid o) (o_prio o) (o_sa o)
    (o_da o) (o_inlen o) (o_desc o) p.

Inductive pev :=
| PevSend (frame : list Z)          (* pnal_eth_send *)
| PevArm (delay : Z)                (* pf_scheduler_add succeeded *)
| PevDisarm                         (* pf_scheduler_remove_if_running *)
| PevStarted                        (* pf_ppm_state_ind (error = false) *)
| PevError                          (* pf_ppm_state_ind (error = true) *)
| PevFree.                          (* pnal_buf_free of the send buffer *)

(** pf_ppm.c:1031-1048 pf_ppm_calculate_next_cyclecounter.  The interval is a
    uint32_t (product of two uint16_t); division by zero is undefined. *)
Definition next_cycle (prev scf rr : Z) : outcome Z :=
  let interval := u32 (scf * rr) in
  if interval =? 0 then Ub
  else
    let number := u16 (prev / interval) in
    Ok (u16 (u32 ((number + 1) * interval))).

(** pf_ppm.c:986-1004 pf_ppm_calculate_cyclecounter.  UL is 64 bits. *)
Definition cyclecounter (timestamp scf rr : Z) : outcome Z :=
  let interval := u32 (scf * rr) in
  if interval =? 0 then Ub
  else
    let raw := (32 * timestamp) / 1000 in
    let number := u32 (raw / interval) in
    Ok (u16 (u32 (number * interval))).

(** pf_ppm.c:134-180 pf_ppm_init_buf. *)
Definition init_buf (p : ppm) (cap : list Z) (frame_id vid prio : Z) : outcome (list Z) :=
  do b0 <- poke cap 0 (repeat 0 (Z.to_nat (p_blen p)));
  do b1 <- poke b0 0 (p_da p);
  do b2 <- poke b1 6 (p_sa p);
  do b3 <- poke b2 12 (be16 33024);                                   (* 0x8100 *)
  do b4 <- poke b3 14 (be16 (u16 (Z.lor (Z.land vid 4095) (Z.shiftl (Z.land prio 7) 13))));
  do b5 <- poke b4 16 (be16 34962);                                   (* 0x8892 *)
  poke b5 18 (be16 frame_id).

(** pf_ppm.c:182-212 pf_ppm_finish_buffer.  Writing to a freed send buffer is
    undefined. *)
Definition finish_buffer (p : ppm) (data_length : Z) : outcome ppm :=
  if negb (p_alloc p) then Ub else
  do cy <- next_cycle (p_cycle p) (p_scf p) (p_rr p);
  do data <- slice (p_image p) 0 data_length;
  do b1 <- poke (p_send p) (p_bpos p) data;
  do b2 <- poke b1 (p_coff p) (be16 cy);
  do b3 <- poke b2 (p_doff p) [p_dstat p];
  do b4 <- poke b3 (p_toff p) [p_tstat p];
  Ok (mkPpm (p_state p) (p_next p) (p_sa p) (p_da p) (p_first p) b4 (p_slen p) (p_alloc p) cy
        (p_tstat p) (p_dstat p) (p_blen p) (p_bpos p) (p_coff p) (p_doff p) (p_toff p)
        (p_image p) (p_trx p) (p_scf p) (p_rr p) (p_int p) (p_ci p)).

(** pf_ppm.c:229-286 pf_ppm_init_cr_config and 288-347 pf_ppm_create.
    [alloc_ok]: pnal_buf_alloc succeeded; [junk] is the content of the new
    buffer.  The instance counter and mutex creation (304-309) are left out. *)
Definition create (o : iocr) (alloc_ok : bool) (junk : list Z) : outcome (iocr * Z) :=
  let p := o_ppm o in
  match p_state p with
  | PRun => Ok (o, -1)
  | PWStart =>
    let bpos := 2 * 6 + 4 + 2 + 2 in
    let coff := u16 (bpos + o_sdu o) in
    let doff := u16 (bpos + o_sdu o + 2) in
    let toff := u16 (bpos + o_sdu o + 2 + 1) in
    let blen := u16 (bpos + o_sdu o + 2 + 1 + 1) in
    let dstat := 1 + 4 + 32 in    (* PRIMARY, DATA_VALID, normal operation *)
    let int := u32 (u32 (o_scf o * o_rr o) * 1000) / 32 in
    let p1 := mkPpm (p_state p) (p_next p) (o_sa o) (o_da o) false (p_send p) (p_slen p)
                false 0 0 dstat blen bpos coff doff toff (p_image p) (p_trx p)
                (o_scf o) (o_rr o) int (p_ci p) in
    if alloc_ok then
      do b <- init_buf p1 junk (o_fid o) (o_vid o) (o_prio o);
      Ok (set_ppm o (mkPpm (p_state p1) (p_next p1) (p_sa p1) (p_da p1) false b blen true
                       0 0 dstat blen bpos coff doff toff (p_image p1) (p_trx p1)
                       (o_scf o) (o_rr o) int (p_ci p1)), 0)
    else Ok (set_ppm o p1, -1)
  end.

(** pf_ppm.c:349-392 pf_ppm_activate_req with pf_ppm_driver_sw.c:84-107. *)
Definition pactivate (o : iocr) (now : Z) (add_ok : bool) : outcome (iocr * list pev * Z) :=
  let p := o_ppm o in
  match p_state p with
  | PRun => Ok (o, [], -1)
  | PWStart =>
    let p1 := mkPpm PRun (u32 (now + p_int p)) (p_sa p) (p_da p) (p_first p) (p_send p)
                (p_slen p) (p_alloc p) (p_cycle p) (p_tstat p) (p_dstat p) (p_blen p) (p_bpos p)
                (p_coff p) (p_doff p) (p_toff p) (p_image p) (p_trx p) (p_scf p) (p_rr p)
                (p_int p) true in
    do p2 <- finish_buffer p1 (o_inlen o);
    Ok (set_ppm o p2, [if add_ok then PevArm (p_int p) else PevError], if add_ok then 0 else -1)
  end.

(** pf_ppm_driver_sw.c:37-77 pf_ppm_drv_sw_send: the timer callback.  [eth_ok]:
    pf_eth_send_on_management_port returned a value > 0 (the frame is handed to
    the driver in any case); [add_ok]: pf_scheduler_add succeeded. *)
Definition send (o : iocr) (now : Z) (eth_ok add_ok : bool) : outcome (iocr * list pev) :=
  let p := o_ppm o in
  if p_ci p then
    do p1 <- finish_buffer p (o_inlen o);
    do frame <- slice (p_send p1) 0 (p_slen p1);
    if eth_ok then
      let next := u32 (p_next p1 + p_int p1) in
      let delay := u32 (next - now) in
      let p2 := mkPpm (p_state p1) next (p_sa p1) (p_da p1) (if add_ok then true else p_first p1)
                  (p_send p1) (p_slen p1) (p_alloc p1) (p_cycle p1) (p_tstat p1) (p_dstat p1)
                  (p_blen p1) (p_bpos p1) (p_coff p1) (p_doff p1) (p_toff p1) (p_image p1)
                  (if add_ok then u32 (p_trx p1 + 1) else p_trx p1) (p_scf p1) (p_rr p1)
                  (p_int p1) (p_ci p1) in
      Ok (set_ppm o p2,
          PevSend frame ::
          (if add_ok then PevArm delay :: (if p_first p1 then [] else [PevStarted])
           else [PevError]))
    else Ok (set_ppm o p1, [PevSend frame])
  else Ok (o, []).

(** pf_ppm.c:394-425 pf_ppm_close_req with pf_ppm_driver_sw.c:109-124. *)
Definition pclose (o : iocr) : iocr * list pev :=
  let p := o_ppm o in
  (set_ppm o (mkPpm PWStart (p_next p) (p_sa p) (p_da p) (p_first p) (p_send p) (p_slen p) false
     (p_cycle p) (p_tstat p) 0 (p_blen p) (p_bpos p) (p_coff p) (p_doff p) (p_toff p) (p_image p)
     (p_trx p) (p_scf p) (p_rr p) (p_int p) false), [PevDisarm; PevFree]).

(** pf_ppm.c:427-501 pf_ppm_get_ar_iocr_desc, for a sub-slot owned by this AR:
    the first descriptor with this address. *)
Definition key_eqb (a b : Z * Z * Z) : bool :=
  let '(x, y, z) := a in let '(x', y', z') := b in (x =? x') && (y =? y') && (z =? z').

Definition find_desc (o : iocr) (k : Z * Z * Z) : option iodata :=
  if o_input o then
    match find (fun e => key_eqb (fst e) k) (o_desc o) with
    | Some e => Some (snd e)
    | None => None
    end
  else None.

Definition set_image (p : ppm) (img : list Z) : ppm :=
  mkPpm (p_state p) (p_next p) (p_sa p) (p_da p) (p_first p) (p_send p) (p_slen p) (p_alloc p)
    (p_cycle p) (p_tstat p) (p_dstat p) (p_blen p) (p_bpos p) (p_coff p) (p_doff p) (p_toff p)
    img (p_trx p) (p_scf p) (p_rr p) (p_int p) (p_ci p).

(** The data argument of a write: a buffer, or NULL with a length. *)
Inductive wdata := WBytes (bs : list Z) | WNull (n : Z).
Definition wlen (w : wdata) : Z :=
  match w with WBytes bs => Z.of_nat (length bs) | WNull n => n end.

(** pf_ppm.c:503-584 pf_ppm_set_data_and_iops with
    pf_ppm_driver_sw.c:148-182. *)
Definition set_data (o : iocr) (k : Z * Z * Z) (w : wdata) (iops : list Z) : outcome (iocr * Z) :=
  match find_desc o k with
  | None => Ok (o, -1)
  | Some d =>
    if (wlen w =? d_len d) && (Z.of_nat (length iops) =? s_len d) then
      do img1 <- match w with
                 | WBytes bs => poke (p_image (o_ppm o)) (d_off d) bs
                 | WNull _ => Ok (p_image (o_ppm o))
                 end;
      do img2 <- poke img1 (s_off d) iops;
      Ok (set_ppm o (set_image (o_ppm o) img2), 0)
    else Ok (o, -1)
  end.

(** pf_ppm.c:586-659 pf_ppm_set_iocs with pf_ppm_driver_sw.c:218-237. *)
Definition set_iocs (o : iocr) (k : Z * Z * Z) (iocs : list Z) : outcome (iocr * Z) :=
  match find_desc o k with
  | None => Ok (o, -1)
  | Some d =>
    if Z.of_nat (length iocs) =? k_len d then
      do img <- poke (p_image (o_ppm o)) (k_off d) iocs;
      Ok (set_ppm o (set_image (o_ppm o) img), 0)
    else if k_len d =? 0 then Ok (o, 0)
    else Ok (o, -1)
  end.

(** pf_ppm.c:661-752 pf_ppm_get_data_and_iops with
    pf_ppm_driver_sw.c:184-216; [None] is -1. *)
Definition pget_data (o : iocr) (k : Z * Z * Z) (dlen slen : Z) : outcome (option (list Z * list Z)) :=
  match find_desc o k with
  | None => Ok None
  | Some d =>
    match p_state (o_ppm o) with
    | PWStart => Ok None
    | PRun =>
      if (d_len d <=? dlen) && (s_len d <=? slen) then
        do x <- slice (p_image (o_ppm o)) (d_off d) (d_len d);
        do y <- slice (p_image (o_ppm o)) (s_off d) (s_len d);
        Ok (Some (x, y))
      else Ok None
    end
  end.

(** pf_ppm.c:754-831 pf_ppm_get_iocs with pf_ppm_driver_sw.c:239-258. *)
Definition pget_iocs (o : iocr) (k : Z * Z * Z) (klen : Z) : outcome (option (list Z)) :=
  match find_desc o k with
  | None => Ok None
  | Some d =>
    match p_state (o_ppm o) with
    | PWStart => Ok None
    | PRun =>
      if k_len d <=? klen then
        do x <- slice (p_image (o_ppm o)) (k_off d) (k_len d);
        Ok (Some x)
      else Ok None
    end
  end.

(** uint8_t |= BIT (b) and &= ~BIT (b). *)
Definition put_bit (x b : Z) (v : bool) : Z :=
  if v then u8 (Z.lor x (2 ^ b)) else u8 (Z.land x (Z.lnot (2 ^ b))).

Definition set_dstat (p : ppm) (x : Z) : ppm :=
  mkPpm (p_state p) (p_next p) (p_sa p) (p_da p) (p_first p) (p_send p) (p_slen p) (p_alloc p)
    (p_cycle p) (p_tstat p) x (p_blen p) (p_bpos p) (p_coff p) (p_doff p) (p_toff p)
    (p_image p) (p_trx p) (p_scf p) (p_rr p) (p_int p) (p_ci p).

(** The setters of the data status. *)
Inductive dset :=
| DPrimary (v : bool)       (* pf_ppm.c:833-856 pf_ppm_set_data_status_state *)
| DRedundancy (v : bool)    (* pf_ppm.c:858-881 *)
| DProvider (v : bool)      (* pf_ppm.c:883-906 *)
| DProblem (v : bool).      (* pf_ppm.c:914-944 pf_ppm_set_problem_indicator *)

Definition apply_dset (x : Z) (s : dset) : Z :=
  match s with
  | DPrimary v => put_bit x 0 v
  | DRedundancy v => put_bit x 1 v
  | DProvider v => put_bit x 4 v
  | DProblem v => put_bit x 5 (negb v)
  end.

(** The problem indicator is set only in provider CRs (line 923); the other
    setters are called for one CR. *)
Definition dset_step (o : iocr) (s : dset) : iocr :=
  match s with
  | DProblem _ => if o_input o then set_ppm o (set_dstat (o_ppm o) (apply_dset (p_dstat (o_ppm o)) s)) else o
  | _ => set_ppm o (set_dstat (o_ppm o) (apply_dset (p_dstat (o_ppm o)) s))
  end.

(** ** Histories of one provider CR

    [QOpen]: pf_cmsu.c:pf_cmsu_start_req creates and then activates the
    producer.  [QTimer]: the send timer expires, if it is armed. *)
Inductive pop :=
| QOpen (alloc_ok : bool) (junk : list Z) (now : Z) (add_ok : bool)
| QSetData (k : Z * Z * Z) (w : wdata) (iops : list Z)
| QSetIocs (k : Z * Z * Z) (iocs : list Z)
| QDset (s : dset)
| QTimer (now : Z) (eth_ok add_ok : bool)
| QClose.

Record psys := mkPsys { y_o : iocr; y_arm : bool; y_log : list pev }.

Definition is_arm (e : pev) : bool := match e with PevArm _ => true | _ => false end.

Definition pstep (y : psys) (q : pop) : outcome psys :=
  match q with
  | QOpen alloc_ok junk now add_ok =>
    do r <- create (y_o y) alloc_ok junk;
    if snd r =? 0 then
      do r2 <- pactivate (fst r) now add_ok;
      let '(o', evs, _) := r2 in
      Ok (mkPsys o' (existsb is_arm evs) (rev evs ++ y_log y))
    else Ok (mkPsys (fst r) (y_arm y) (y_log y))
  | QSetData k w iops => do r <- set_data (y_o y) k w iops; Ok (mkPsys (fst r) (y_arm y) (y_log y))
  | QSetIocs k iocs => do r <- set_iocs (y_o y) k iocs; Ok (mkPsys (fst r) (y_arm y) (y_log y))
  | QDset s => Ok (mkPsys (dset_step (y_o y) s) (y_arm y) (y_log y))
  | QTimer now e a =>
    if y_arm y then
      do r <- send (y_o y) now e a;
      Ok (mkPsys (fst r) (existsb is_arm (snd r)) (rev (snd r) ++ y_log y))
    else Ok y
  | QClose =>
    let r := pclose (y_o y) in
    Ok (mkPsys (fst r) false (rev (snd r) ++ y_log y))
  end.

(** Runs operations; the events come newest first. *)
Fixpoint prun (y : psys) (qs : list pop) : outcome psys :=
  match qs with
  | [] => Ok y
  | q :: qs' => do y' <- pstep y q; prun y' qs'
  end.

(** The producer in an AR just allocated (memset in pf_cmrpc.c). *)
Definition ppm0 : ppm :=
  mkPpm PWStart 0 [] [] false [] 0 false 0 0 0 0 0 0 0 0
    (repeat 0 (Z.to_nat frame_buffer_size)) 0 0 0 0 false.
