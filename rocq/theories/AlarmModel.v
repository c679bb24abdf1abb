(** Model of alarm handling for one place in the connection table:
    src/common/pf_alarm.c.  The connection in that place may end and a new one
    may be established in the same place.

    Simplifications:
    - Frames that are sent are records, not bytes (pf_put_alarm_fixed and
      pf_put_alarm_block are not modelled here); frames that are received are
      bytes.
    - The alarm specifier and maintenance status that pf_alarm_send_internal
      computes from the diagnosis store are left out (see DiagModel.v).
    - The transport is Ethernet (transport_udp = false); with UDP the code sends
      nothing (pf_alarm.c 1252-1255).
    - A buffer without payload memory (pf_alarm.c 1270) does not occur.
    - What the environment decides when a frame is sent or a timer is started
      (allocation, transmission, room in the scheduler) is an arbitrary function
      of the number of the attempt.
    - Any pending timer may expire next.
    - pf_alarm_periodic is atomic: no frame is put into a queue while it runs.
    - User call-backs do not call back into the stack.
    - The connection is aborted (pf_alarm_error_ind, pf_cmdev.c 1394-1435)
      by close below: the alarm machines are closed and the whole AR is cleared
      with memset (pf_ar_release, pf_cmrpc.c 790). *)

From Coq Require Import List ZArith Arith Bool.
From Verif Require Import Base BlockModel.
Import ListNotations.
Set Implicit Arguments.
Open Scope nat_scope.

(** ** Queues *)

(** pf_queue_accountant_t and the items of pf_alarm_send_queue_t and
    pf_alarm_receive_queue_t, pf_types.h.  q_avail: the mutex exists. *)
Record ring (A : Type) := mkRing {
  q_avail : bool; q_count : nat; q_rd : nat; q_wr : nat; q_items : nat -> option A }.
Arguments mkRing {A}.

Section Ring.
Variable A : Type.
(** PNET_MAX_ALARMS. *)
Variable cap : nat.

Definition ring0 : ring A := mkRing false 0 0 0 (fun _ => None).

(** pf_alarm_queue_mutex_create and pf_alarm_queue_mutex_destroy,
    pf_alarm.c 2353-2380. *)
Definition ring_create (q : ring A) : ring A :=
  mkRing true (q_count q) (q_rd q) (q_wr q) (q_items q).
Definition ring_destroy (q : ring A) : ring A :=
  mkRing false (q_count q) (q_rd q) (q_wr q) (q_items q).

(** pf_alarm_receive_queue_reset and pf_alarm_send_queue_reset,
    pf_alarm.c 2503-2529 and 2614-2631.  The second component: the items that
    were found in the array, in the order of the array. *)
Definition ring_items (q : ring A) : list A :=
  flat_map (fun i => match q_items q i with Some x => [x] | None => [] end) (seq 0 cap).
Definition ring_reset (q : ring A) : ring A * list A :=
  if q_avail q then (mkRing true 0 0 0 (fun _ => None), ring_items q) else (q, []).

(** pf_alarm_receive_queue_post and pf_alarm_send_queue_post with
    pf_alarm_queue_get_writeindex, pf_alarm.c 2440-2460, 2538-2573 and
    2640-2672.  The boolean is ret == 0. *)
Definition ring_post (x : A) (q : ring A) : bool * ring A :=
  if negb (q_avail q) then (false, q)
  else if cap <=? q_count q then (false, q)
  else
    let w := S (q_wr q) in
    (true, mkRing true (S (q_count q)) (q_rd q) (if cap <=? w then 0 else w)
             (upd (q_items q) (q_wr q) (Some x))).

(** pf_alarm_receive_queue_fetch and pf_alarm_send_queue_fetch with
    pf_alarm_queue_get_readindex, pf_alarm.c 2472-2492, 2582-2606 and
    2683-2704.  Simplification: the send queue leaves the fetched item in the
    array; here it is removed in both queues (nobody reads it again). *)
Definition ring_fetch (q : ring A) : option A * ring A :=
  if negb (q_avail q) then (None, q)
  else if q_count q =? 0 then (None, q)
  else
    let r := S (q_rd q) in
    (q_items q (q_rd q),
     mkRing true (q_count q - 1) (if cap <=? r then 0 else r) (q_wr q)
       (upd (q_items q) (q_rd q) None)).
End Ring.
Arguments ring0 {A}.

(** ** State *)

(** pf_apms_state_values_t, pf_apmr_state_values_t, pf_alpmi_state_values_t,
    pf_alpmr_state_values_t, pf_types.h 1918-1930 and 1974-1987. *)
Inductive apms := SClosed | SOpen | SWtack.
Inductive apmr := RClosed | ROpen | RWcnf.
Inductive alpmi := IStart | IAlarm | IAck.
Inductive alpmr := LStart | LNotify | LUserAck | LTack.

(** An alarm to be sent: pf_alarm_data_t without sequence number and
    specifier. *)
Record alarm := mkAlarm {
  al_type : Z; al_api : Z; al_slot : Z; al_subslot : Z; al_module : Z;
  al_submodule : Z; al_usi : Z; al_data : list Z }.

(** What is sent: an alarm notification with its sequence number, an alarm
    acknowledge, a transport acknowledge, a negative transport acknowledge,
    an error frame. *)
Inductive content := FNotify (a : alarm) (seqno : Z) | FAlAck (d : adata) (s : pnio)
                   | FTack | FNack | FErr.
Record frame := mkFrame { f_cont : content; f_tack : bool; f_send : Z; f_ack : Z }.

(** A received frame: buffer number, bytes, frame_id_pos. *)
Record rmsg := mkMsg { g_buf : nat; g_bytes : list Z; g_idpos : Z }.

(** pf_apmx_t, pf_alpmx_t and the send queue of one priority. *)
Record px := mkPx {
  ms : apms; mr : apmr; li : alpmi; lr : alpmr;
  send_seq : Z; send_seq_o : Z; exp_seq : Z; exp_seq_o : Z;
  alseq : Z;                          (* p_alpmx->sequence_number *)
  resend : nat;                       (* resend_counter *)
  rta : option (nat * frame);         (* p_rta: buffer number, frame *)
  handle : option nat;                (* resend_timeout *)
  rq : ring rmsg; sq : ring alarm }.
Definition px0 : px :=
  mkPx SClosed RClosed IStart LStart 0 0 0 0 0 0 None None ring0 ring0.

(** Why the connection ends: no transport acknowledge for a frame of this
    priority (pf_alarm.c 927-933), a frame to be sent while the previous one
    waits for its transport acknowledge (489-495), an alarm while the
    application has not acknowledged the previous one (671-677), a frame that
    is neither alarm nor alarm acknowledge (1911-1920), an error frame
    (2208-2225), or a reason outside of the alarm machines. *)
Inductive why := WTimeout (p : bool) | WBusy | WUnacked | WProtocol | WPeer | WOther.

(** What can be seen from outside.  The boolean of most is the priority (true:
    high).
    AActivate, AAbort: start (with number of retries, timeout factor, maximum
    payload) and end of the connection; ACrash: a NULL pointer is dereferenced
    AAccept, ARefuse: pf_alarm_send_alarm returns 0 or -1
    ATx p f b ok: frame f in buffer b is handed to the Ethernet driver, and
    whether that succeeded; AReTx: the same for a repetition
    ALost: no buffer for frame f; ABusy: an alarm or alarm acknowledge is not
    sent because the previous frame still waits for its transport acknowledge
    ATack p n: a valid transport acknowledge for number n is received
    AInd: alarm_ind call-back with the position and length of the payload
    ACnf, AAckCnf: alarm_cnf and alarm_ack_cnf call-backs
    AAckRet: result of pnet_alarm_send_ack
    AIn: a received buffer is put into the queue; ARej: it is not (the caller
    frees it); AAlloc, AFree: pnal_buf_alloc, pnal_buf_free
    ATaken p send: a DATA frame with the expected number is accepted
    AArm p t us, AFire p t: timer t is started (for us microseconds), expires;
    ANoArm: the scheduler has no room. *)
Inductive obs :=
| AActivate (retries : nat) (factor : Z) (maxlen : nat) | AAbort (w : why) | ACrash
| AAccept (p : bool) (a : alarm) | ARefuse (p : bool) (a : alarm)
| ATx (p : bool) (f : frame) (b : nat) (ok : bool) | AReTx (p : bool) (f : frame)
| ALost (p : bool) (f : frame) | ABusy (p : bool) (c : content) | ATack (p : bool) (n : Z)
| AInd (p : bool) (d : adata) (usi len pos : Z) (b : nat)
| ACnf (p : bool) (s : pnio) | AAckCnf (p : bool) | AAckRet (d : adata) (ok : bool)
| AIn (p : bool) (m : rmsg) | ARej (p : bool) (b : nat)
| AAlloc (b : nat) | AFree (b : nat)
| ATaken (p : bool) (send : Z)
| AArm (p : bool) (t : nat) (us : Z) | AFire (p : bool) (t : nat) | ANoArm (p : bool).

Record st := mkSt {
  s_px : bool -> px;
  s_live : bool;                  (* in_use and activated *)
  s_enable : bool;                (* alarm_enable *)
  s_retries : nat; s_factor : Z; s_maxlen : nat;   (* alarm_cr_request *)
  s_timers : list (nat * bool);   (* pending timers: identifier, priority *)
  s_next : nat;                   (* next identifier of a buffer or timer *)
  s_crash : bool;
  s_tr : list obs }.              (* newest first *)

Definition emit (o : obs) (s : st) : st :=
  mkSt (s_px s) (s_live s) (s_enable s) (s_retries s) (s_factor s) (s_maxlen s)
       (s_timers s) (s_next s) (s_crash s) (o :: s_tr s).
Definition setp (p : bool) (x : px) (s : st) : st :=
  mkSt (fun q => if Bool.eqb q p then x else s_px s q) (s_live s) (s_enable s)
       (s_retries s) (s_factor s) (s_maxlen s) (s_timers s) (s_next s) (s_crash s) (s_tr s).
Definition bump (s : st) : st :=
  mkSt (s_px s) (s_live s) (s_enable s) (s_retries s) (s_factor s) (s_maxlen s)
       (s_timers s) (S (s_next s)) (s_crash s) (s_tr s).
Definition settimers (l : list (nat * bool)) (s : st) : st :=
  mkSt (s_px s) (s_live s) (s_enable s) (s_retries s) (s_factor s) (s_maxlen s)
       l (s_next s) (s_crash s) (s_tr s).
Definition crash (s : st) : st :=
  mkSt (s_px s) (s_live s) (s_enable s) (s_retries s) (s_factor s) (s_maxlen s)
       (s_timers s) (s_next s) true (ACrash :: s_tr s).

Definition with_ms (v : apms) (x : px) := mkPx v (mr x) (li x) (lr x) (send_seq x)
  (send_seq_o x) (exp_seq x) (exp_seq_o x) (alseq x) (resend x) (rta x) (handle x) (rq x) (sq x).
Definition with_mr (v : apmr) (x : px) := mkPx (ms x) v (li x) (lr x) (send_seq x)
  (send_seq_o x) (exp_seq x) (exp_seq_o x) (alseq x) (resend x) (rta x) (handle x) (rq x) (sq x).
Definition with_li (v : alpmi) (x : px) := mkPx (ms x) (mr x) v (lr x) (send_seq x)
  (send_seq_o x) (exp_seq x) (exp_seq_o x) (alseq x) (resend x) (rta x) (handle x) (rq x) (sq x).
Definition with_lr (v : alpmr) (x : px) := mkPx (ms x) (mr x) (li x) v (send_seq x)
  (send_seq_o x) (exp_seq x) (exp_seq_o x) (alseq x) (resend x) (rta x) (handle x) (rq x) (sq x).
Definition with_send (v o : Z) (x : px) := mkPx (ms x) (mr x) (li x) (lr x) v
  o (exp_seq x) (exp_seq_o x) (alseq x) (resend x) (rta x) (handle x) (rq x) (sq x).
Definition with_exp (v o : Z) (x : px) := mkPx (ms x) (mr x) (li x) (lr x) (send_seq x)
  (send_seq_o x) v o (alseq x) (resend x) (rta x) (handle x) (rq x) (sq x).
Definition with_alseq (v : Z) (x : px) := mkPx (ms x) (mr x) (li x) (lr x) (send_seq x)
  (send_seq_o x) (exp_seq x) (exp_seq_o x) v (resend x) (rta x) (handle x) (rq x) (sq x).
Definition with_resend (v : nat) (x : px) := mkPx (ms x) (mr x) (li x) (lr x) (send_seq x)
  (send_seq_o x) (exp_seq x) (exp_seq_o x) (alseq x) v (rta x) (handle x) (rq x) (sq x).
Definition with_rta (v : option (nat * frame)) (x : px) := mkPx (ms x) (mr x) (li x) (lr x)
  (send_seq x) (send_seq_o x) (exp_seq x) (exp_seq_o x) (alseq x) (resend x) v (handle x) (rq x) (sq x).
Definition with_handle (v : option nat) (x : px) := mkPx (ms x) (mr x) (li x) (lr x)
  (send_seq x) (send_seq_o x) (exp_seq x) (exp_seq_o x) (alseq x) (resend x) (rta x) v (rq x) (sq x).
Definition with_rq (v : ring rmsg) (x : px) := mkPx (ms x) (mr x) (li x) (lr x) (send_seq x)
  (send_seq_o x) (exp_seq x) (exp_seq_o x) (alseq x) (resend x) (rta x) (handle x) v (sq x).
Definition with_sq (v : ring alarm) (x : px) := mkPx (ms x) (mr x) (li x) (lr x) (send_seq x)
  (send_seq_o x) (exp_seq x) (exp_seq_o x) (alseq x) (resend x) (rta x) (handle x) (rq x) v.

(** ** Parsing of a received frame *)

Inductive body := BAck (s : pnio) | BNotify (d : adata) (usi len pos : Z) | BNotifyBad | BOther.
Inductive pdu := PIgnored | PAck (ack : Z) | PData (tack : bool) (send ack : Z) (b : body) | PErr.

(** The block types of a priority, pf_alarm.c 1013-1031. *)
Definition bt_notify (p : bool) : Z := if p then 1%Z else 2%Z.
Definition bt_ack (p : bool) : Z := if p then 32769%Z else 32770%Z.

(** The part of pf_alarm_apmr_a_data_ind that parses, pf_alarm.c 1791 and
    1816-1917.  varlen: var_part_len (uint16_t). *)
Definition parse_body (p : bool) (varlen : Z) (r : rd) : outcome body :=
  let start := r_pos r in
  do x <- get_block_header r;
  let '(h, r) := x in
  if (b_type h =? bt_ack p)%Z then
    do x <- get_pnio_status r; let '(s, _) := x in Ok (BAck s)
  else if (b_type h =? bt_notify p)%Z then
    do x <- get_alarm_data r;
    let '(d, r) := x in
    do x <- get_u16 r;
    let '(usi, r) := x in
    match r_res r with
    | POk => Ok (BNotify d usi (u16 (varlen - (r_pos r - start))) (r_pos r))
    | _ => Ok BNotifyBad
    end
  else Ok BOther.

(** The part of pf_alarm_apmr_periodic that parses, pf_alarm.c 2097-2267. *)
Definition parse (p : bool) (m : rmsg) : outcome pdu :=
  let r := mkRd (Some (g_bytes m)) (Z.of_nat (length (g_bytes m))) true POk
             (u16 (g_idpos m + 2)) in
  do x <- get_alarm_fixed r;
  let '(f, r) := x in
  do x <- get_u16 r;
  let '(varlen, r) := x in
  if (a_version f =? 1)%Z then
    if (a_type f =? 3)%Z then
      if (varlen =? 0)%Z then Ok (PAck (a_ack f)) else Ok PIgnored
    else if (a_type f =? 1)%Z then
      do b <- parse_body p varlen r;
      Ok (PData (negb (a_tack f =? 0)%Z) (a_send f) (a_ack f) b)
    else if (a_type f =? 4)%Z then
      if (varlen =? 4)%Z then Ok PErr else Ok PIgnored
    else Ok PIgnored
  else Ok PIgnored.

(** ** The machines *)

Section Alarm.
(** PNET_MAX_ALARMS and PNET_MAX_ALARM_PAYLOAD_DATA_SIZE. *)
Variable cap : nat.
Variable max_payload : nat.

(** The environment at the attempt with a given number: does pnal_buf_alloc
    succeed, does pf_eth_send_on_management_port succeed, does
    pf_scheduler_add succeed. *)
Record answer := mkAnswer { o_alloc : bool; o_send : bool; o_sched : bool }.
Variable ora : nat -> answer.

Definition free_rta (p : bool) (s : st) : st :=
  match rta (s_px s p) with
  | Some (b, _) => emit (AFree b) (setp p (with_rta None (s_px s p)) s)
  | None => s
  end.

(** pf_alarm_apms_a_data_req, pf_alarm.c 1232-1466.  The boolean is
    ret == 0. *)
Definition a_data_req (p : bool) (f : frame) (s : st) : bool * st :=
  let b := s_next s in
  let s := bump s in
  if o_alloc (ora b) then
    let ok := o_send (ora b) in
    let s := emit (ATx p f b ok) (emit (AAlloc b) s) in
    let s :=
      if f_tack f then
        match rta (s_px s p) with
        | None => setp p (with_rta (Some (b, f)) (s_px s p)) s
        | Some _ => emit (AFree b) s
        end
      else emit (AFree b) s in
    (ok, s)
  else
    (false, emit (ALost p f) s).

Definition del_timer (h : option nat) (l : list (nat * bool)) : list (nat * bool) :=
  match h with
  | Some i => filter (fun t => negb (fst t =? i)) l
  | None => l
  end.

(** One iteration of the last loop of pf_alarm_apmx_close,
    pf_alarm.c 1638-1677. *)
Definition close_px (p : bool) (s : st) : st :=
  let x := s_px s p in
  let s := match ms x with
           | SClosed => s
           | _ => settimers (del_timer (handle x) (s_timers s)) s
           end in
  let s := free_rta p s in
  match mr x with
  | RClosed => s
  | _ => fold_left (fun s m => emit (AFree (g_buf m)) s) (snd (ring_reset cap (rq x))) s
  end.

(** pf_alarm_close, pf_alarm.c 2796-2827 with pf_alarm_apmx_close 1576-1679
    and pf_alarm_alpmx_close 423-463, followed by memset of the AR. *)
Definition close (w : why) (s : st) : st :=
  let s := emit (AAbort w) s in
  let x := s_px s false in
  let s := match ms x with
           | SClosed => s
           | _ => snd (a_data_req false (mkFrame FErr false (send_seq x) (exp_seq_o x)) s)
           end in
  let s := close_px true (close_px false s) in
  mkSt (fun _ => px0) false false 0 0 0 (s_timers s) (s_next s) (s_crash s) (s_tr s).

(** pf_alarm_error_ind, pf_alarm.c 330-351, on a connection that is in use:
    p_apmx->p_ar is not NULL. *)
Definition error_ind (w : why) (s : st) : st := if s_live s then close w s else crash s.

(** pf_alarm_alpmi_apms_a_data_cnf, pf_alarm.c 476-499, and
    pf_alarm_alpmr_apms_a_data_cnf, 553-604, with res == 0. *)
Definition cnf_pos (p : bool) (s : st) : st :=
  match lr (s_px s p) with
  | LTack => setp p (with_lr LNotify (s_px s p)) (emit (AAckCnf p) s)
  | _ => s
  end.
(** The same with res == -1 (pf_alarm.c 1507-1508).  The first aborts the
    connection, whereby p_apmx->p_alpmx becomes NULL; the second dereferences
    it. *)
Definition cnf_neg (s : st) : st :=
  let s := error_ind WBusy s in
  if s_live s then s else crash s.

(** pf_alarm_apms_apms_a_data_req, pf_alarm.c 1491-1559. *)
Definition apms_req (p : bool) (c : content) (s : st) : bool * st :=
  let x := s_px s p in
  match ms x with
  | SOpen =>
      let s := setp p (with_resend (s_retries s) x) s in
      let '(ok, s) := a_data_req p (mkFrame c true (send_seq x) (exp_seq_o x)) s in
      let s := setp p (with_ms SWtack (s_px s p)) s in
      let t := s_next s in
      let s := bump s in
      if o_sched (ora t) then
        (ok, emit (AArm p t (100 * 1000 * s_factor s)%Z)
               (settimers ((t, p) :: s_timers s)
                  (setp p (with_handle (Some t) (s_px s p)) s)))
      else (false, emit (ANoArm p) s)
  | _ => (false, cnf_neg (emit (ABusy p c) s))
  end.

Definition del_first (i : nat) (l : list (nat * bool)) : list (nat * bool) :=
  filter (fun t => negb (fst t =? i)) l.

(** pf_alarm_apms_timeout, pf_alarm.c 849-956.  The scheduler has removed the
    timer. *)
Definition timeout (t : nat) (p : bool) (s : st) : st :=
  let s := emit (AFire p t) (settimers (del_first t (s_timers s)) s) in
  let s := setp p (with_handle None (s_px s p)) s in
  let x := s_px s p in
  match ms x with
  | SWtack =>
      match rta x with
      | None => s
      | Some (_, f) =>
          match resend x with
          | S n =>
              let s := emit (AReTx p f) (setp p (with_resend n x) s) in
              let u := s_next s in
              let s := bump s in
              if o_sched (ora u) then
                emit (AArm p u (100 * 1000 * s_factor s)%Z)
                  (settimers ((u, p) :: s_timers s)
                     (setp p (with_handle (Some u) (s_px s p)) s))
              else emit (ANoArm p) s
          | O => error_ind (WTimeout p) (setp p (with_ms SOpen x) s)
          end
      end
  | _ => free_rta p s
  end.

(** pf_alarm_apms_a_data_ind, pf_alarm.c 1104-1183, for ACK and DATA. *)
Definition next_seq (v : Z) : Z := Z.land (v + 1) 32767.
Definition tack_ind (p : bool) (ack : Z) (s : st) : st :=
  let x := s_px s p in
  match ms x with
  | SWtack =>
      if (ack =? send_seq x)%Z then
        let s := emit (ATack p ack)
                   (setp p (with_send (next_seq (send_seq x)) (send_seq x) x) s) in
        let s := free_rta p s in
        let s := cnf_pos p s in
        setp p (with_ms SOpen (s_px s p)) s
      else s
  | _ => s
  end.

(** pf_alarm_apmr_send_ack and pf_alarm_apmr_send_nack,
    pf_alarm.c 1694-1764. *)
Definition send_tack (p : bool) (s : st) : bool * st :=
  a_data_req p (mkFrame FTack false (send_seq_o (s_px s p)) (exp_seq_o (s_px s p))) s.
Definition send_nack (p : bool) (s : st) : bool * st :=
  a_data_req p (mkFrame FNack false (send_seq_o (s_px s p)) (exp_seq_o (s_px s p))) s.

(** pf_alarm_alpmi_apmr_a_data_ind, pf_alarm.c 514-540. *)
Definition alpmi_data (p : bool) (t : pnio) (s : st) : st :=
  match li (s_px s p) with
  | IAck => emit (ACnf p t) (setp p (with_li IAlarm (s_px s p)) s)
  | _ => s
  end.

(** pf_alarm_alpmr_apmr_a_data_ind, pf_alarm.c 625-683. *)
Definition alpmr_data (p : bool) (d : adata) (usi len pos : Z) (b : nat) (s : st) : bool * st :=
  match lr (s_px s p) with
  | LStart => (true, s)
  | LNotify => (true, emit (AInd p d usi len pos b) (setp p (with_lr LUserAck (s_px s p)) s))
  | LUserAck | LTack => (false, error_ind WUnacked s)
  end.

(** pf_alarm_apmr_a_data_ind, pf_alarm.c 1783-1968.  b: the number of the
    buffer. *)
Definition data_ind (p : bool) (tack : bool) (send ack : Z) (y : body) (b : nat) (s : st)
  : bool * st :=
  let x := s_px s p in
  match mr x with
  | RClosed => (true, s)
  | RWcnf => (false, s)
  | ROpen =>
      if negb tack then (true, s)
      else if (send =? exp_seq x)%Z then
        let accept (s : st) :=
          let s := tack_ind p ack s in
          let x := s_px s p in
          let s := emit (ATaken p send) (setp p (with_exp (next_seq (exp_seq x)) (exp_seq x) x) s) in
          send_tack p s in
        match y with
        | BAck t =>
            let '(ok, s) := accept s in
            if ok then
              let s := setp p (with_mr RWcnf (s_px s p)) s in
              let s := alpmi_data p t s in
              (true, setp p (with_mr ROpen (s_px s p)) s)
            else (false, s)
        | BNotify d usi len pos =>
            let '(ok, s) := accept s in
            if ok then
              let s := setp p (with_mr RWcnf (s_px s p)) s in
              let '(ok, s) := alpmr_data p d usi len pos b s in
              if ok : bool then (true, setp p (with_mr ROpen (s_px s p)) s) else (false, s)
            else (false, s)
        | BNotifyBad =>
            let '(ok, s) := accept s in
            if ok then (false, setp p (with_mr RWcnf (s_px s p)) s) else (false, s)
        | BOther => (false, error_ind WProtocol s)
        end
      else if (send =? exp_seq_o x)%Z then
        let s := tack_ind p ack s in
        (true, snd (send_tack p s))
      else (true, snd (send_nack p s))
  end.

(** One frame in pf_alarm_apmr_periodic, pf_alarm.c 2103-2267. *)
Definition handle_pdu (p : bool) (u : pdu) (b : nat) (s : st) : bool * st :=
  match u with
  | PIgnored => (true, s)
  | PAck ack => (true, tack_ind p ack s)
  | PData tack send ack y => data_ind p tack send ack y b s
  | PErr => (true, error_ind WPeer s)
  end.
Definition handle_msg (p : bool) (m : rmsg) (s : st) : bool * st :=
  match parse p m with
  | Ok u => let '(ok, s) := handle_pdu p u (g_buf m) s in (ok, emit (AFree (g_buf m)) s)
  | _ => (false, crash s)
  end.

(** The while loop of pf_alarm_apmr_periodic for one priority,
    pf_alarm.c 2093-2275.  fuel: at least the number of frames waiting. *)
Fixpoint apmr_loop (fuel : nat) (p : bool) (s : st) : bool * st :=
  match fuel with
  | O => (true, s)
  | S n =>
      match mr (s_px s p) with
      | RClosed => (true, s)
      | _ =>
          let '(o, q) := ring_fetch cap (rq (s_px s p)) in
          match o with
          | None => (true, s)
          | Some m =>
              let '(ok, s) := handle_msg p m (setp p (with_rq q (s_px s p)) s) in
              if s_crash s then (false, s)
              else if ok then apmr_loop n p s else (false, s)
          end
      end
  end.
Definition apmr_periodic (s : st) : st :=
  let '(ok, s) := apmr_loop (q_count (rq (s_px s false))) false s in
  if ok then snd (apmr_loop (q_count (rq (s_px s true))) true s) else s.

(** pf_alarm_send_internal, pf_alarm.c 2294-2340, where [x] is the state of the
    priority after the alarm was taken from the queue. *)
Definition send_internal (p : bool) (a : alarm) (x : px) (s : st) : st :=
  let n := alseq x in
  let s := setp p (with_alseq ((n + 1) mod 2048)%Z x) s in
  let '(ok, s) := apms_req p (FNotify a n) s in
  if ok then setp p (with_li IAck (s_px s p)) s else s.

(** pf_alarm_almpi_periodic, pf_alarm.c 2721-2750. *)
Definition try_send (p : bool) (s : st) : bool * st :=
  match li (s_px s p) with
  | IAlarm =>
      let '(o, q) := ring_fetch cap (sq (s_px s p)) in
      match o with
      | Some a => (true, send_internal p a (with_sq q (s_px s p)) s)
      | None => (false, s)
      end
  | _ => (false, s)
  end.
Definition almpi_periodic (s : st) : st :=
  if s_enable s then
    let '(sent, s) := try_send true s in
    if sent then s else snd (try_send false s)
  else s.

(** pf_alarm_periodic, pf_alarm.c 2980-3002, for this place of the table. *)
Definition periodic (s : st) : st :=
  if s_live s then
    let s := apmr_periodic s in
    if s_crash s then s else almpi_periodic s
  else s.

(** pf_alarm_activate, pf_alarm.c 2770-2794, pf_alarm_alpmx_activate 366-407
    and pf_alarm_apmx_activate 974-1086, on a cleared AR. *)
Definition active_px : px :=
  mkPx SOpen ROpen IAlarm LNotify 65535 65534 65535 65534 0 0 None None
       (mkRing true 0 0 0 (fun _ => None)) (mkRing true 0 0 0 (fun _ => None)).
Definition activate (retries : nat) (factor : Z) (maxlen : nat) (s : st) : st :=
  mkSt (fun _ => active_px) true false retries factor maxlen (s_timers s) (s_next s)
       (s_crash s) (AActivate retries factor maxlen :: s_tr s).

(** pf_alarm_send_alarm, pf_alarm.c 3106-3202. *)
Definition send_alarm (p : bool) (a : alarm) (s : st) : st :=
  if negb (s_enable s) || (max_payload <? length (al_data a))
     || (s_maxlen s <? length (al_data a))
  then emit (ARefuse p a) s
  else
    let '(ok, q) := ring_post cap a (sq (s_px s p)) in
    if ok then emit (AAccept p a) (setp p (with_sq q (s_px s p)) s)
    else emit (ARefuse p a) s.

(** pf_alarm_alpmr_alarm_ack, pf_alarm.c 3004-3057: always high priority. *)
Definition alarm_ack (d : adata) (t : pnio) (s : st) : st :=
  match lr (s_px s true) with
  | LUserAck =>
      let x := s_px s true in
      let s := setp true (with_alseq ((alseq x + 1) mod 2048)%Z x) s in
      let '(ok, s) := apms_req true (FAlAck d t) s in
      if s_crash s then s
      else emit (AAckRet d ok) (setp true (with_lr LTack (s_px s true)) s)
  | _ => emit (AAckRet d false) s
  end.

(** The part of pf_alarm_apmr_frame_handler that uses the queue,
    pf_alarm.c 740-824; the endpoint belongs to this connection and is active
    exactly while the connection is. *)
Definition frame_in (p : bool) (bytes : list Z) (idpos : Z) (s : st) : st :=
  let b := s_next s in
  let s := bump s in
  if s_live s then
    let m := mkMsg b bytes idpos in
    let '(ok, q) := ring_post cap m (rq (s_px s p)) in
    if ok then emit (AIn p m) (setp p (with_rq q (s_px s p)) s) else emit (ARej p b) s
  else emit (ARej p b) s.

Inductive input :=
| XActivate (retries : nat) (factor : Z) (maxlen : nat)
| XEnable (b : bool)                       (* pf_alarm_enable, pf_alarm_disable *)
| XClose                                   (* the connection ends for another reason *)
| XAlarm (p : bool) (a : alarm)
| XAck (d : adata) (t : pnio)
| XFrame (p : bool) (bytes : list Z) (idpos : Z)
| XPeriodic
| XTimer (t : nat).

Definition step (e : input) (s : st) : st :=
  if s_crash s then s
  else
    match e with
    | XActivate r f m => if s_live s then s else activate r f m s
    | XEnable b =>
        if s_live s
        then mkSt (s_px s) true b (s_retries s) (s_factor s) (s_maxlen s) (s_timers s)
                  (s_next s) (s_crash s) (s_tr s)
        else s
    | XClose => if s_live s then close WOther s else s
    | XAlarm p a => if s_live s then send_alarm p a s else emit (ARefuse p a) s
    | XAck d t => if s_live s then alarm_ack d t s else emit (AAckRet d false) s
    | XFrame p bytes idpos => frame_in p bytes idpos s
    | XPeriodic => periodic s
    | XTimer t => match find (fun x => fst x =? t) (s_timers s) with
                  | Some (_, p) => timeout t p s
                  | None => s
                  end
    end.

Fixpoint run (es : list input) (s : st) : st :=
  match es with
  | [] => s
  | e :: r => run r (step e s)
  end.

Definition st0 : st := mkSt (fun _ => px0) false false 0 0 0 [] 0 false [].
End Alarm.
