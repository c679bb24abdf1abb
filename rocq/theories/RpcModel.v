(** Model of the RPC layer: sessions, fragments, repetitions and answers
    (src/device/pf_cmrpc.c).  The header of a datagram is read and written with
    the functions of BlockModel.v.

    Simplifications: what the handler of a request does is given by an oracle (see
    [hres]); time is not modelled, a timer is running or not; an abort of a
    connection (pf_cmdev_cm_abort, 1469-1510 of pf_cmdev.c) always ends it (it may
    be ignored for connections with "device access"); the driver accepts a datagram
    for an open socket according to an oracle. *)
From Coq Require Import List ZArith Arith Bool.
From Verif Require Import Base CpmModel PpmModel BlockModel.
Import ListNotations.
Local Open Scope Z_scope.

(** * Constants *)
(** pf_types.h:74 PF_MAX_UDP_PAYLOAD_SIZE *)
Definition max_payload : Z := 1440.
(** pf_cmrpc.c:69-72 PF_CMRPC_PDU_HEADER_SIZE, PF_CMRPC_MAX_PDU_BODY_SIZE *)
Definition header_size : Z := 80.
Definition max_body : Z := 1464 - header_size.
(** pf_cmrpc.c:89 PF_CMRPC_NUMBER_OF_RESENDS *)
Definition number_of_resends : Z := 3.
(** pf_types.h:62 PF_RPC_SERVER_PORT *)
Definition server_port : Z := 34964.
(** pf_types.h:183-197 *)
Definition pt_request : Z := 0.
Definition pt_ping : Z := 1.
Definition pt_response : Z := 2.
Definition pt_fault : Z := 3.
Definition pt_resp_ping : Z := 5.
Definition pt_reject : Z := 6.
Definition pt_cl_cancel : Z := 8.
Definition pt_frag_ack : Z := 9.
(** pf_types.h:216-224 *)
Definition op_connect : Z := 0.
Definition op_release : Z := 1.
Definition op_read : Z := 2.
Definition op_write : Z := 3.
Definition op_control : Z := 4.
Definition op_read_implicit : Z := 5.
(** PF_RPC_NCA_PROTO_ERROR: 0x1c01000b *)
Definition nca_proto_error : Z := 469827595.
(** pf_cmrpc.c:77-87; 3794-3805 *)
Definition uuid_epmap : uuid := mkUuid 3786375944 23839 4553 [145; 164; 8; 0; 43; 20; 160; 250].
Definition uuid_io_device : uuid := mkUuid 3734765569 27799 4561 [130; 113; 0; 160; 36; 66; 223; 125].
Definition uuid_io_controller : uuid := mkUuid 3734765570 27799 4561 [130; 113; 0; 160; 36; 66; 223; 125].

(** memcmp of two UUIDs. *)
Definition uuid_eqb (a b : uuid) : bool :=
  (u_d1 a =? u_d1 b) && (u_d2 a =? u_d2 b) && (u_d3 a =? u_d3 b) && blist_eqb (u_d4 a) (u_d4 b).

(** * State *)

(** Configuration: PNET_MAX_SESSION_BUFFER_SIZE, PF_MAX_SESSION, PNET_MAX_AR, the
    sockets for requests and for the endpoint mapper. *)
Record cfg := mkCfg { c_buf : Z; c_sessions : nat; c_ars : nat; c_pnio : Z; c_epm : Z }.

(** pf_types.h:2032-2091 pf_session_info_t.  [s_err]: rpc_result holds an error;
    [s_resend], [s_epmtimer]: the timer is running.  ndr_data, get_info are local to
    the handling of a datagram. *)
Record sess := mkSess {
  s_used : bool; s_release : bool; s_kill : bool; s_socket : Z; s_ar : option nat; s_from_me : bool;
  s_uuid : uuid; s_ip : Z; s_port : Z;
  s_in : list Z; s_in_len : Z; s_in_frag : Z;
  s_out : list Z; s_out_len : Z; s_sent_pos : Z; s_send_len : Z; s_out_frag : Z;
  s_be : bool; s_err : bool; s_dseq : Z; s_epmseq : Z; s_epmtimer : bool; s_resend : bool; s_counter : Z }.

Definition with_used (s : sess) (v : bool) := mkSess v (s_release s) (s_kill s) (s_socket s) (s_ar s) (s_from_me s) (s_uuid s) (s_ip s) (s_port s) (s_in s) (s_in_len s) (s_in_frag s) (s_out s) (s_out_len s) (s_sent_pos s) (s_send_len s) (s_out_frag s) (s_be s) (s_err s) (s_dseq s) (s_epmseq s) (s_epmtimer s) (s_resend s) (s_counter s).
Definition with_release (s : sess) (v : bool) := mkSess (s_used s) v (s_kill s) (s_socket s) (s_ar s) (s_from_me s) (s_uuid s) (s_ip s) (s_port s) (s_in s) (s_in_len s) (s_in_frag s) (s_out s) (s_out_len s) (s_sent_pos s) (s_send_len s) (s_out_frag s) (s_be s) (s_err s) (s_dseq s) (s_epmseq s) (s_epmtimer s) (s_resend s) (s_counter s).
Definition with_kill (s : sess) (v : bool) := mkSess (s_used s) (s_release s) v (s_socket s) (s_ar s) (s_from_me s) (s_uuid s) (s_ip s) (s_port s) (s_in s) (s_in_len s) (s_in_frag s) (s_out s) (s_out_len s) (s_sent_pos s) (s_send_len s) (s_out_frag s) (s_be s) (s_err s) (s_dseq s) (s_epmseq s) (s_epmtimer s) (s_resend s) (s_counter s).
Definition with_socket (s : sess) (v : Z) := mkSess (s_used s) (s_release s) (s_kill s) v (s_ar s) (s_from_me s) (s_uuid s) (s_ip s) (s_port s) (s_in s) (s_in_len s) (s_in_frag s) (s_out s) (s_out_len s) (s_sent_pos s) (s_send_len s) (s_out_frag s) (s_be s) (s_err s) (s_dseq s) (s_epmseq s) (s_epmtimer s) (s_resend s) (s_counter s).
Definition with_ar (s : sess) (v : option nat) := mkSess (s_used s) (s_release s) (s_kill s) (s_socket s) v (s_from_me s) (s_uuid s) (s_ip s) (s_port s) (s_in s) (s_in_len s) (s_in_frag s) (s_out s) (s_out_len s) (s_sent_pos s) (s_send_len s) (s_out_frag s) (s_be s) (s_err s) (s_dseq s) (s_epmseq s) (s_epmtimer s) (s_resend s) (s_counter s).
Definition with_err (s : sess) (v : bool) := mkSess (s_used s) (s_release s) (s_kill s) (s_socket s) (s_ar s) (s_from_me s) (s_uuid s) (s_ip s) (s_port s) (s_in s) (s_in_len s) (s_in_frag s) (s_out s) (s_out_len s) (s_sent_pos s) (s_send_len s) (s_out_frag s) (s_be s) v (s_dseq s) (s_epmseq s) (s_epmtimer s) (s_resend s) (s_counter s).
Definition with_peer (s : sess) (ip port : Z) := mkSess (s_used s) (s_release s) (s_kill s) (s_socket s) (s_ar s) (s_from_me s) (s_uuid s) ip port (s_in s) (s_in_len s) (s_in_frag s) (s_out s) (s_out_len s) (s_sent_pos s) (s_send_len s) (s_out_frag s) (s_be s) (s_err s) (s_dseq s) (s_epmseq s) (s_epmtimer s) (s_resend s) (s_counter s).
Definition with_in (s : sess) (b : list Z) (len frag : Z) := mkSess (s_used s) (s_release s) (s_kill s) (s_socket s) (s_ar s) (s_from_me s) (s_uuid s) (s_ip s) (s_port s) b len frag (s_out s) (s_out_len s) (s_sent_pos s) (s_send_len s) (s_out_frag s) (s_be s) (s_err s) (s_dseq s) (s_epmseq s) (s_epmtimer s) (s_resend s) (s_counter s).
Definition with_out (s : sess) (b : list Z) (len sent send frag : Z) := mkSess (s_used s) (s_release s) (s_kill s) (s_socket s) (s_ar s) (s_from_me s) (s_uuid s) (s_ip s) (s_port s) (s_in s) (s_in_len s) (s_in_frag s) b len sent send frag (s_be s) (s_err s) (s_dseq s) (s_epmseq s) (s_epmtimer s) (s_resend s) (s_counter s).
Definition with_epm (s : sess) (seq : Z) (t : bool) := mkSess (s_used s) (s_release s) (s_kill s) (s_socket s) (s_ar s) (s_from_me s) (s_uuid s) (s_ip s) (s_port s) (s_in s) (s_in_len s) (s_in_frag s) (s_out s) (s_out_len s) (s_sent_pos s) (s_send_len s) (s_out_frag s) (s_be s) (s_err s) (s_dseq s) seq t (s_resend s) (s_counter s).
Definition with_dseq (s : sess) (v : Z) := mkSess (s_used s) (s_release s) (s_kill s) (s_socket s) (s_ar s) (s_from_me s) (s_uuid s) (s_ip s) (s_port s) (s_in s) (s_in_len s) (s_in_frag s) (s_out s) (s_out_len s) (s_sent_pos s) (s_send_len s) (s_out_frag s) (s_be s) (s_err s) v (s_epmseq s) (s_epmtimer s) (s_resend s) (s_counter s).
Definition with_resend (s : sess) (t : bool) (c : Z) := mkSess (s_used s) (s_release s) (s_kill s) (s_socket s) (s_ar s) (s_from_me s) (s_uuid s) (s_ip s) (s_port s) (s_in s) (s_in_len s) (s_in_frag s) (s_out s) (s_out_len s) (s_sent_pos s) (s_send_len s) (s_out_frag s) (s_be s) (s_err s) (s_dseq s) (s_epmseq s) (s_epmtimer s) t c.
Definition with_id (s : sess) (u : uuid) (be : bool) := mkSess (s_used s) (s_release s) (s_kill s) (s_socket s) (s_ar s) (s_from_me s) u (s_ip s) (s_port s) (s_in s) (s_in_len s) (s_in_frag s) (s_out s) (s_out_len s) (s_sent_pos s) (s_send_len s) (s_out_frag s) be (s_err s) (s_dseq s) (s_epmseq s) (s_epmtimer s) (s_resend s) (s_counter s).
Definition with_from_me (s : sess) (v : bool) := mkSess (s_used s) (s_release s) (s_kill s) (s_socket s) (s_ar s) v (s_uuid s) (s_ip s) (s_port s) (s_in s) (s_in_len s) (s_in_frag s) (s_out s) (s_out_len s) (s_sent_pos s) (s_send_len s) (s_out_frag s) (s_be s) (s_err s) (s_dseq s) (s_epmseq s) (s_epmtimer s) (s_resend s) (s_counter s).

(** memset to 0, socket -1 (586-588 of pf_session_release). *)
Definition zeros (n : Z) : list Z := repeat 0 (Z.to_nat n).
Definition blank (c : cfg) : sess :=
  mkSess false false false (-1) None false (mkUuid 0 0 0 [0; 0; 0; 0; 0; 0; 0; 0]) 0 0 (zeros (c_buf c)) 0 0
    (zeros (c_buf c)) 0 0 0 0 false false 0 0 false false 0.

(** Sessions, and for each entry of the table of connections (cmrpc_ar, those with
    arep > 0) the session it refers to (p_ar->p_sess) if the entry is in use. *)
Record net := mkNet { n_sess : list sess; n_ar : list (option nat) }.

(** pf_cmrpc.c:5187-5207 pf_cmrpc_init. *)
Definition rpc_init (c : cfg) : net := mkNet (repeat (blank c) (c_sessions c)) (repeat None (c_ars c)).

Fixpoint put_nth {A} (l : list A) (i : nat) (v : A) : list A :=
  match l, i with
  | [], _ => []
  | _ :: t, O => v :: t
  | x :: t, S j => x :: put_nth t j v
  end.
Definition sess_at (c : cfg) (st : net) (k : nat) : sess := nth k (n_sess st) (blank c).
Definition set_sess (st : net) (k : nat) (s : sess) : net := mkNet (put_nth (n_sess st) k s) (n_ar st).
Definition set_ar (st : net) (i : nat) (v : option nat) : net := mkNet (n_sess st) (put_nth (n_ar st) i v).
Definition ar_at (st : net) (i : nat) : option nat := nth i (n_ar st) None.

(** * Observable events *)

(** What the handler of a request sees: memory, length, position, parse state. *)
Inductive ev :=
| Sent (k : nat) (socket ip port : Z) (bytes : list Z)          (* datagram sent *)
| Execute (k : nat) (op : Z) (r : rd) (err : bool)              (* the handler of operation op runs *)
| Repeated (k : nat) (op : Z)                                   (* control request answered, not executed *)
| Lookup (k : nat) (r : rd) (err : bool)                        (* endpoint mapper request *)
| Confirm (k : nat) (i : nat) (r : rd)                          (* answer to application ready of connection i *)
| Connected (i : nat) (k : nat)                                 (* connection i opened by session k *)
| Ended (i : nat)                                               (* connection i aborted *)
| ParamEnd (i : nat)                                            (* PNET_EVENT_PRMEND *)
| Closed (socket : Z).

(** What the handler of a request does to the connections.  [EConnect]: connect,
    accepted or not; [EDup i]: the AR UUID of connection i; [ERelease i]:
    release of connection i; [EKill]: AR UUID unknown; [ENone]: other. *)
Inductive effect := ENone | EKill | EConnect (accepted : bool) | EDup (i : nat) | ERelease (i : nat).

(** Oracle for the handling of one datagram.  [o_body]: the response behind the
    header, as far as there is room for it; [o_parsed]: the control request could
    be interpreted; [o_prmend]: it asks for the event after the answer; [o_done]:
    the session of an application ready request is finished; [o_epmdone]: no more
    endpoints; [o_uuid]: result of pf_generate_uuid; [o_sent]: the driver accepts
    the datagram; [o_timer]: the scheduler accepts the timer. *)
Record hres := mkHres { o_body : list Z; o_effect : effect; o_parsed : bool; o_prmend : bool; o_done : bool;
  o_epmdone : bool; o_uuid : uuid; o_sent : bool; o_timer : bool }.

(** * Sessions and connections *)

(** pf_cmrpc.c:502-550 pf_session_allocate: the first unused entry. *)
Fixpoint first_free (l : list sess) (k : nat) : option nat :=
  match l with
  | [] => None
  | s :: t => if s_used s then first_free t (S k) else Some k
  end.
Definition new_session (c : cfg) (u : uuid) : sess := with_dseq (with_id (with_used (blank c) true) u false) 4294967295.
Definition allocate (c : cfg) (u : uuid) (st : net) : option (nat * net) :=
  match first_free (n_sess st) 0 with
  | Some k => Some (k, set_sess st k (new_session c u))
  | None => None
  end.

(** pf_cmrpc.c:627-652 pf_session_locate_by_uuid. *)
Fixpoint locate (l : list sess) (k : nat) (u : uuid) : option nat :=
  match l with
  | [] => None
  | s :: t => if negb (s_used s) || negb (uuid_eqb u (s_uuid s)) then locate t (S k) u else Some k
  end.

(** pf_cmrpc.c:560-597 pf_session_release. *)
Definition release (c : cfg) (k : nat) (st : net) : net * list ev :=
  let s := sess_at c st k in
  if s_used s then
    (set_sess st k (blank c), if (-1 <? s_socket s) && s_from_me s then [Closed (s_socket s)] else [])
  else (st, []).

(** pf_cmrpc.c:5260-5264: release of all sessions found by pf_session_locate_by_ar
    (666-692), in the order of the table. *)
Fixpoint release_by_ar (c : cfg) (i : nat) (ks : list nat) (st : net) : net * list ev :=
  match ks with
  | [] => (st, [])
  | k :: t =>
    let s := sess_at c st k in
    if s_used s && s_from_me s && match s_ar s with Some j => Nat.eqb j i | None => false end then
      let '(st1, e1) := release c k st in
      let '(st2, e2) := release_by_ar c i t st1 in (st2, e1 ++ e2)
    else release_by_ar c i t st
  end.

(** pf_cmrpc.c:5222-5276 pf_cmrpc_cmdev_state_ind for PNET_EVENT_ABORT, and the free
    of the connection. *)
Definition abort (c : cfg) (i : nat) (st : net) : net * list ev :=
  match ar_at st i with
  | None => (st, [])
  | Some k =>
    let '(st1, e1) := if s_release (sess_at c st k) then (st, []) else release c k st in
    let '(st2, e2) := release_by_ar c i (seq 0 (c_sessions c)) st1 in
    (set_ar st2 i None, Ended i :: e1 ++ e2)
  end.

(** * Sending *)

(** pf_cmrpc.c:968-1018 pf_cmrpc_send_once_from_buffer: success and event. *)
Definition send_buffer (o : hres) (k : nat) (s : sess) (bytes : list Z) : bool * list ev :=
  match bytes with
  | [] => (false, [])
  | _ => if (s_socket s <? 0) || negb (o_sent o) then (false, [])
         else (true, [Sent k (s_socket s) (s_ip s) (s_port s) bytes])
  end.

(** pf_cmrpc.c:1030-1045 pf_cmrpc_send_once. *)
Definition send_once (o : hres) (k : nat) (s : sess) : outcome (bool * list ev) :=
  do b <- slice (s_out s) 0 (s_send_len s); Ok (send_buffer o k s b).

(** pf_cmrpc.c:1065-1154 pf_cmrpc_send_with_timeout.  The access to p_sess->p_ar is
    undefined if the session has no connection. *)
Definition send_with_timeout (c : cfg) (o : hres) (k : nat) (st : net) : outcome (net * list ev) :=
  let s := sess_at c st k in
  if s_socket s <? 0 then Ok (st, [])
  else if 0 <? s_counter s then
    let s1 := with_resend s false (s_counter s - 1) in
    do x <- send_once o k s1;
    let '(ok, e) := x in
    Ok (set_sess st k (with_resend s1 (ok && o_timer o) (s_counter s1)), e)
  else
    let st1 := set_sess st k (with_resend s false (s_counter s)) in
    match s_ar s with
    | None => Ub
    | Some i =>
      let '(st2, e) := abort c i st1 in
      let s2 := sess_at c st2 k in
      if s_from_me s && (-1 <? s_socket s2) then Ok (set_sess st2 k (with_socket s2 (-1)), e ++ [Closed (s_socket s2)])
      else Ok (st2, e)
    end.

(** pf_block_writer.c:1437-1545 pf_put_dce_rpc_header as in BlockModel.v, with the
    position of the length of the body. *)
Definition hdr_head (h : rpch) : writer :=
  let be := h_be h in
  let b x := if x =? 0 then 0 else 1 in
  put_byte (h_version h) ;; put_byte (h_ptype h) ;;
  put_byte (put_bits (b (h_bcast h)) 1 6 (put_bits (b (h_idem h)) 1 5 (put_bits (b (h_maybe h)) 1 4
    (put_bits (b (h_nofack h)) 1 3 (put_bits (b (h_frag h)) 1 2 (put_bits (b (h_last h)) 1 1 0))))) mod 256) ;;
  put_byte 0 ;;
  put_byte (put_bits (if be then 0 else 1) 4 4 0 mod 256) ;;
  put_byte (h_float h) ;; put_byte (h_reserved h) ;; put_byte (h_serial_high h) ;;
  put_uuid be (h_object h) ;; put_uuid be (h_interface h) ;; put_uuid be (h_activity h) ;;
  put_u32 be (h_boot h) ;; put_u32 be (h_ifver h) ;; put_u32 be (h_seq h) ;;
  put_u16 be (h_opnum h) ;; put_u16 be (h_ifhint h) ;; put_u16 be (h_acthint h).
Definition hdr_tail (h : rpch) : writer :=
  put_u16 (h_be h) (h_bodylen h) ;; put_u16 (h_be h) (h_fragnmb h) ;; put_byte (h_auth h) ;; put_byte (h_serial_low h).
(** Buffer, its size for the writer, position: new buffer, new position, position of
    the length. *)
Definition put_header (h : rpch) (b : list Z) (len pos : Z) : outcome (list Z * Z * Z) :=
  do w <- hdr_head h (mkWr (Some b) len pos);
  do v <- hdr_tail h w;
  match w_buf v with Some b' => Ok (b', w_pos v, w_pos w) | None => Ub end.
Definition put_len (be : bool) (v : Z) (b : list Z) (len pos : Z) : outcome (list Z) :=
  do w <- put_u16 be v (mkWr (Some b) len pos);
  match w_buf w with Some b' => Ok b' | None => Ub end.

(** Headers of answers: 4493-4508, 4547-4559, 4619-4632, 4818-4834, 5042-5053. *)
Definition set_flags (h : rpch) (pt last frag nofack idem : Z) (be : bool) (bodylen fragnmb sh sl : Z) : rpch :=
  mkRpch (h_version h) pt last frag nofack 0 idem 0 0 be (h_float h) (h_reserved h) sh
    (h_object h) (h_interface h) (h_activity h) (h_boot h) (h_ifver h) (h_seq h) (h_opnum h) (h_ifhint h) (h_acthint h)
    bodylen fragnmb (h_auth h) sl.

(** * Incoming datagrams *)

(** cmrpc_dcerpc_output_frame (pf_types.h:3006). *)
Definition out_frame : list Z := repeat 0 1500.

(** 4488-4524 of pf_cmrpc_dce_packet: too large, answer with a reject. *)
Definition answer_reject (o : hres) (k : nat) (h : rpch) (s : sess) : outcome (list ev) :=
  do x <- put_header (set_flags h pt_reject 0 0 1 1 (s_be s) 4 0 (h_serial_high h) (h_serial_low h)) out_frame max_payload 0;
  let '(b, pos, _) := x in
  do w <- put_u32 (s_be s) nca_proto_error (mkWr (Some b) max_payload pos);
  match w_buf w with
  | Some b' => do d <- slice b' 0 (w_pos w); Ok (snd (send_buffer o k s d))
  | None => Ub
  end.

(** 4531-4571: ping. *)
Definition answer_ping (o : hres) (k : nat) (h : rpch) (s : sess) : outcome (list ev) :=
  do x <- put_header (set_flags h pt_resp_ping 0 0 1 1 (s_be s) (h_bodylen h) 0 (h_serial_high h) (h_serial_low h)) out_frame max_payload 0;
  let '(b, pos, _) := x in
  do d <- slice b 0 pos; Ok (snd (send_buffer o k s d)).

(** 5035-5069: acknowledge of a fragment. *)
Definition answer_ack (o : hres) (k : nat) (h : rpch) (s : sess) : outcome (list ev) :=
  do x <- put_header (set_flags h pt_frag_ack 0 0 0 0 (s_be s) 0 (h_fragnmb h) (h_serial_high h) (h_serial_low h)) out_frame max_payload 0;
  let '(b, pos, _) := x in
  do d <- slice b 0 pos; Ok (snd (send_buffer o k s d)).

(** First free entry of the table of connections (704-751 pf_ar_allocate). *)
Fixpoint free_ar (l : list (option nat)) (i : nat) : option nat :=
  match l with
  | [] => None
  | None :: _ => Some i
  | Some _ :: t => free_ar t (S i)
  end.

(** Effect of the handlers on sessions and connections, after the response has been
    written.
    1974-2117 pf_cmrpc_rm_connect_ind;
    2357-2450 pf_cmrpc_rm_release_ind; 2702-2784 pf_cmrpc_rm_dcontrol_ind;
    2908-2966 pf_cmrpc_rm_read_ind; 3220-3242 pf_cmrpc_perform_one_write. *)
Definition connect_fails (c : cfg) (k : nat) (st : net) : net :=
  let s := sess_at c st k in set_sess st k (with_kill (with_ar s None) true).
Definition do_connect (c : cfg) (o : hres) (k : nat) (err : bool) (st : net) : net * list ev :=
  if err then (connect_fails c k st, [])
  else match o_effect o with
       | EDup i =>
         match ar_at st i with
         | None => (connect_fails c k st, [])
         | Some j =>
           let s := sess_at c st k in
           abort c i (set_sess st k (with_kill (if Nat.eqb j k then with_release s true else s) true))
         end
       | EConnect true =>
         match free_ar (n_ar st) 0 with
         | None => (connect_fails c k st, [])
         | Some i =>
           let s := sess_at c st k in
           (set_ar (set_sess st k (with_ar s (Some i))) i (Some k), [Connected i k])
         end
       | _ => (connect_fails c k st, [])
       end.
Definition do_release (c : cfg) (o : hres) (k : nat) (err : bool) (st : net) : net * list ev :=
  let '(st1, e) := if err then (st, []) else match o_effect o with ERelease i => abort c i st | _ => (st, []) end in
  (set_sess st1 k (with_kill (sess_at c st1 k) true), e).
Definition kill_if (c : cfg) (b : bool) (k : nat) (st : net) : net :=
  let s := sess_at c st k in set_sess st k (with_kill s (s_kill s || b)).
Definition is_ekill (e : effect) : bool := match e with EKill => true | _ => false end.

(** pf_cmrpc.c:3627-3739 pf_cmrpc_rpc_request: state, events, ParamEnd requested. *)
Definition rpc_request (c : cfg) (o : hres) (k : nat) (h : rpch) (r : rd) (st : net) : net * list ev * bool :=
  let s := sess_at c st k in
  let err := s_err s in
  let op := h_opnum h in
  let ex := Execute k op r err in
  if op =? op_connect then let '(st1, e) := do_connect c o k err st in (st1, ex :: e, false)
  else if op =? op_release then let '(st1, e) := do_release c o k err st in (st1, ex :: e, false)
  else if op =? op_read then
    (kill_if c ((negb err && is_ekill (o_effect o)) || match s_ar s with None => true | Some _ => false end) k st, [ex], false)
  else if op =? op_write then (kill_if c (is_ekill (o_effect o)) k st, [ex], false)
  else if op =? op_control then
    if o_parsed o then
      if s_dseq s =? h_seq h then (st, [Repeated k op], false)
      else
        let st1 := kill_if c (is_ekill (o_effect o)) k st in
        (set_sess st1 k (with_dseq (sess_at c st1 k) (h_seq h)), [ex], o_prmend o)
    else (st, [], false)
  else if op =? op_read_implicit then (kill_if c true k st, [ex], false)
  else (st, [], false).

(** 4588-4617: room for the response, parser behind the NDR header, byte order of
    everything that follows. *)
Definition request_limit (c : cfg) (h : rpch) (r : rd) : outcome (Z * rd * bool) :=
  if uuid_eqb (h_interface h) uuid_epmap then Ok (c_buf c, r, false)
  else do x <- get_ndr r;
       let '(nd, r1) := x in
       let m := u32 (r_pos r1 + n_argsmax nd) in
       Ok (if c_buf c <? m then c_buf c else u16 m, r1, true).

(** 4619-4648: header of the response; what the handler writes behind it.  Result:
    state, start of the body, position of its length. *)
Definition request_start (c : cfg) (o : hres) (k : nat) (h : rpch) (m : Z) (be : bool) (st : net) : outcome (net * Z * Z) :=
  let s := sess_at c st k in
  do x <- put_header (set_flags h pt_response 0 0 1 1 be (h_bodylen h) 0 0 0) (s_out s) m 0;
  let '(b0, start, lpos) := x in
  let s1 := with_out s b0 start 0 0 0 in
  let s2 := if h_opnum h =? op_release then with_release s1 true else s1 in
  let body := if uuid_eqb (h_interface h) uuid_io_device || uuid_eqb (h_interface h) uuid_epmap
              then firstn (Z.to_nat (m - start)) (o_body o) else [] in
  do b1 <- poke b0 start body;
  Ok (set_sess st k (with_out s2 b1 (start + Z.of_nat (length body)) 0 0 0), start, lpos).

(** 4650-4711: the handlers. *)
Definition handle (c : cfg) (o : hres) (k : nat) (h : rpch) (r : rd) (st : net) : net * list ev * bool :=
  if uuid_eqb (h_interface h) uuid_io_device then rpc_request c o k h r st
  else if uuid_eqb (h_interface h) uuid_epmap then
    let s := sess_at c st k in
    let s1 := with_socket (with_epm s (s_epmseq s) false) (c_epm c) in
    let s2 := if s_err s1 then s1 else with_kill s1 (s_kill s1 || o_epmdone o) in
    (set_sess st k (if s_kill s2 then s2 else with_epm s2 (u32 (s_epmseq s2 + 1)) (o_timer o)), [Lookup k r (s_err s1)], false)
  else (st, [], false).

(** 4713-4770: the response is sent, or its first fragment. *)
Definition request_send (c : cfg) (o : hres) (k : nat) (h : rpch) (m start lpos : Z) (be : bool) (st : net) : outcome (net * list ev) :=
  let s := sess_at c st k in
  let idem := if uuid_eqb (h_interface h) uuid_epmap then 0 else 1 in
  do z <- (if s_out_len s <? max_payload then Ok (s_out s, s_out_len s, lpos, false)
           else do x <- put_header (set_flags h pt_response 0 1 0 idem be (h_bodylen h) 0 0 0) (s_out s) m 0;
                let '(b, _, lp) := x in Ok (b, max_payload, lp, true));
  let '(b2, send, lp, frag) := z in
  do b3 <- put_len be (u16 (send - start)) b2 send lp;
  let s1 := with_out s b3 (s_out_len s) (s_sent_pos s) send (s_out_frag s) in
  if frag : bool then send_with_timeout c o k (set_sess st k (with_resend s1 (s_resend s1) number_of_resends))
  else do x <- send_once o k s1; Ok (set_sess st k s1, snd x).

(** 4573-4778: a request.  [r]: the parser behind the RPC header. *)
Definition answer_request (c : cfg) (o : hres) (k : nat) (h : rpch) (r : rd) (st : net) : outcome (net * list ev) :=
  do y <- request_limit c h r;
  let '(m, r1, be) := y in
  do x <- request_start c o k h m be st;
  let '(st1, start, lpos) := x in
  let '(st2, e1, prmend) := handle c o k h (set_be r1 be) st1 in
  do w <- request_send c o k h m start lpos be st2;
  let '(st3, e2) := w in
  let e3 := if prmend : bool then match s_ar (sess_at c st3 k) with Some i => [ParamEnd i] | None => [] end else [] in
  Ok (st3, e1 ++ e2 ++ e3).

(** 4779-4936: acknowledge of a fragment, the next one is sent. *)
Definition next_fragment (c : cfg) (o : hres) (k : nat) (h : rpch) (r : rd) (st : net) : outcome (net * list ev) :=
  let s := sess_at c st k in
  let p1 := u16 (s_sent_pos s + s_send_len s) in
  let p2 := if 0 <? s_out_frag s then u16 (p1 - header_size) else p1 in
  let f := u16 (s_out_frag s + 1) in
  if p2 <? s_out_len s then
    let be := if s_from_me s then true else r_be r in
    let hd last := set_flags h (if s_from_me s then pt_request else pt_response) last 1 0 1 be (h_bodylen h) f (u8 (Z.shiftr f 8)) (Z.land f 255) in
    do x <- put_header (hd 0) (s_out s) max_payload 0;
    let '(b0, start, lp0) := x in
    do y <- (if u16 (s_out_len s - p2) <? max_payload - start
             then do x <- put_header (hd 1) b0 max_payload 0; let '(b, _, lp) := x in Ok (b, u16 (s_out_len s - p2), lp)
             else Ok (b0, max_payload - start, lp0));
    let '(b1, n, lp) := y in
    do d <- (if max_payload <? start + n then Ok [] else slice b1 p2 n);
    do b2 <- poke b1 start d;
    do b3 <- put_len be n b2 max_payload lp;
    let s1 := with_resend (with_out s b3 (s_out_len s) p2 (u16 (n + start)) f) (s_resend s) number_of_resends in
    send_with_timeout c o k (set_sess st k s1)
  else Ok (set_sess st k (with_out s (s_out s) 0 0 0 0), []).

(** 4938-4970 and 4012-4230: the answer to an application ready request.  CC_ASSERT
    at 4158. *)
Definition response (c : cfg) (o : hres) (k : nat) (fresh : bool) (h : rpch) (r : rd) (st : net) : outcome (net * list ev) :=
  if fresh then Ok (kill_if c true k st, [])
  else
    do x <- get_ndr r;
    let '(_, r1) := x in
    if h_opnum h =? op_control then
      match s_ar (sess_at c st k) with
      | None => AssertFail
      | Some i => Ok (kill_if c (o_done o) k st, [Confirm k i (set_be r1 true)])
      end
    else Ok (st, []).

(** 4971-5027: cancel, fault, reject. *)
Definition cancel (c : cfg) (k : nat) (st : net) : net * list ev :=
  let '(st1, e) := match s_ar (sess_at c st k) with Some i => abort c i st | None => (st, []) end in
  (set_sess st1 k (with_kill (sess_at c st1 k) true), e).

(** 4375-4478: start of a message, or collection of a fragment: session and parser. *)
Definition begin_message (ip port : Z) (h : rpch) (s : sess) : sess :=
  with_kill (with_in (with_id (with_peer s ip port) (h_activity h) (h_be h)) (s_in s) 0 0) false.
Definition collect (c : cfg) (ip port : Z) (h : rpch) (frame : list Z) (r : rd) (s : sess) : outcome (sess * rd) :=
  if h_frag h =? 0 then Ok (begin_message ip port h s, r)
  else
    let s1 := if h_fragnmb h =? 0 then begin_message ip port h s
              else if Bool.eqb (s_be s) (h_be h) then s else with_err s true in
    if negb (s_in_frag s1 =? h_fragnmb h) then Ok (with_err s1 true, r)
    else if c_buf c <? s_in_len s1 + h_bodylen h then Ok (with_err s1 true, r)
    else
      do d <- slice frame (r_pos r) (h_bodylen h);
      do b <- poke (s_in s1) (s_in_len s1) d;
      let s2 := with_in s1 b (u16 (s_in_len s1 + h_bodylen h)) (u16 (s_in_frag s1 + 1)) in
      Ok (s2, if h_last h =? 0 then r else mkRd (Some b) (s_in_len s2) (r_be r) (r_res r) 0).

(** 4526-5031: what is done with a complete message. *)
Definition act (c : cfg) (o : hres) (k : nat) (fresh : bool) (h : rpch) (r : rd) (st : net) : outcome (net * list ev) :=
  let s := sess_at c st k in
  let pt := h_ptype h in
  let clear := set_sess st k (with_out s (s_out s) 0 0 0 0) in
  if pt =? pt_ping then
    do e <- answer_ping o k h s; Ok (set_sess clear k (with_kill (sess_at c clear k) fresh), e)
  else if pt =? pt_request then answer_request c o k h r clear
  else if pt =? pt_frag_ack then next_fragment c o k h r st
  else if pt =? pt_response then response c o k fresh h r st
  else if (pt =? pt_cl_cancel) || (pt =? pt_fault) || (pt =? pt_reject) then Ok (cancel c k st)
  else Ok (st, []).

(** pf_cmrpc.c:4288-5092 pf_cmrpc_dce_packet behind the parser of the header.
    [frame]: memory of the incoming frame, [r]: parser behind the header. *)
Definition packet (c : cfg) (o : hres) (ip port : Z) (frame : list Z) (h : rpch) (r : rd) (st : net) : outcome (net * list ev) :=
  match (match locate (n_sess st) 0 (h_activity h) with
         | Some k => Some (k, false, st)
         | None => match allocate c (o_uuid o) st with
                   | Some (k, st1) => Some (k, true, set_sess st1 k (with_socket (with_peer (sess_at c st1 k) ip port) (c_pnio c)))
                   | None => None
                   end
         end) with
  | None => Ok (st, [])
  | Some (k, fresh, st1) =>
    let s := with_err (sess_at c st1 k) false in
    let big := max_body <? h_bodylen h in
    do x <- (if big then Ok (s, r) else collect c ip port h frame r s);
    let '(s1, r1) := x in
    let s2 := with_resend s1 false (s_counter s1) in
    let st2 := set_sess st1 k s2 in
    do y <- (if big then do e <- answer_reject o k h s2; Ok (set_sess st2 k (with_kill s2 fresh), e)
             else if (h_frag h =? 0) || negb (h_last h =? 0) then act c o k fresh h r1 st2
             else if h_nofack h =? 0 then do e <- answer_ack o k h s2; Ok (st2, e)
             else Ok (st2, []));
    let '(st3, e) := y in
    if s_kill (sess_at c st3 k) then let '(st4, e') := release c k st3 in Ok (st4, e ++ e')
    else Ok (st3, e)
  end.

(** pf_cmrpc.c:5094-5137 poll_rpc_socket and 4328-4335: a datagram of [len] bytes in
    the memory [frame] (1500 bytes).  [old]: previous content of the local variable
    for the header (only seen if the datagram is too short). *)
Definition datagram (c : cfg) (o : hres) (ip port : Z) (frame : list Z) (len : Z) (old : list Z) (st : net) : outcome (net * list ev) :=
  if len <=? 0 then Ok (st, [])
  else do x <- get_dce_rpc_header old old old (mkRd (Some frame) len false POk 0);
       let '(h, r) := x in packet c o ip port frame h r st.

(** pf_cmrpc.c:3741-4000 pf_cmrpc_rm_ccontrol_req for connection i.  The ip address is
    taken from the session of the connection; [o_body]: NDR header and blocks;
    [sock]: result of pf_udp_open; [obj], [op]: object UUID of the controller.  The
    dereference of p_ar->p_sess needs a connection in use. *)
Definition ccontrol (c : cfg) (o : hres) (i : nat) (sock : Z) (obj : uuid) (st : net) : outcome (net * list ev) :=
  match ar_at st i with
  | None => Ok (st, [])
  | Some j =>
    match allocate c (o_uuid o) st with
    | None => Ok (st, [])
    | Some (k, st1) =>
      let s := with_id (with_from_me (with_peer (with_ar (sess_at c st1 k) (Some i)) (s_ip (sess_at c st1 j)) server_port) true) (o_uuid o) true in
      let hd frag := mkRpch 4 pt_request 0 frag 0 0 1 0 0 true 0 0 0 obj uuid_io_controller (o_uuid o) 0 1 0 op_control 65535 65535 0 0 0 0 in
      do x <- put_header (hd 0) (zeros (c_buf c)) (c_buf c) 0;
      let '(b0, start, lp0) := x in
      let body := firstn (Z.to_nat (c_buf c - start)) (o_body o) in
      do b1 <- poke b0 start body;
      let total := start + Z.of_nat (length body) in
      do y <- (if total <? max_payload then Ok (b1, total, lp0)
               else do x <- put_header (hd 1) b1 max_payload 0; let '(b, _, lp) := x in Ok (b, max_payload, lp));
      let '(b2, send, lp) := y in
      do b3 <- put_len true (u16 (send - start)) b2 max_payload lp;
      let s1 := with_resend (with_socket (with_out s b3 total 0 send 0) sock) false number_of_resends in
      send_with_timeout c o k (set_sess st1 k s1)
    end
  end.

(** * Histories *)
Inductive input :=
| IDatagram (ip port : Z) (frame : list Z) (len : Z) (old : list Z)
| IResend (k : nat)          (* the repetition timer of session k expires *)
| IEpm (k : nat)             (* 608-616 pf_session_epm_timeout *)
| IAbort (i : nat)           (* connection i is aborted elsewhere *)
| IReady (i : nat) (sock : Z) (obj : uuid).   (* the application is ready *)

Definition step (c : cfg) (x : input * hres) (st : net) : outcome (net * list ev) :=
  let '(i, o) := x in
  match i with
  | IDatagram ip port frame len old => datagram c o ip port frame len old st
  | IResend k => if s_resend (sess_at c st k) then send_with_timeout c o k st else Ok (st, [])
  | IEpm k => if s_epmtimer (sess_at c st k) then Ok (release c k st) else Ok (st, [])
  | IAbort i => Ok (abort c i st)
  | IReady i sock obj => ccontrol c o i sock obj st
  end.

Fixpoint run (c : cfg) (l : list (input * hres)) (st : net) : outcome (net * list ev) :=
  match l with
  | [] => Ok (st, [])
  | x :: t => do y <- step c x st; let '(st1, e1) := y in
              do z <- run c t st1; let '(st2, e2) := z in Ok (st2, e1 ++ e2)
  end.
