(** Model of what a port knows about its neighbour, of the sending of LLDP frames
    and of the topology check: src/common/pf_lldp.c (timers, peer data, alias) and
    src/device/pf_pdport.c.  One port; calls are atomic, so the mutexes and the
    races between the receiving thread and pnet_handle_periodic() are left out. *)
From Coq Require Import List ZArith Arith Bool.
From Verif Require Import Base SchedModel CpmModel PpmModel BlockModel LldpModel PortModel.
Import ListNotations.
Local Open Scope Z_scope.

(** * Strings *)

(** The terminated string in an array. *)
Fixpoint cstr (l : list Z) : list Z :=
  match l with
  | [] => []
  | x :: r => if x =? 0 then [] else x :: cstr r
  end.

(** strncmp (a, b, n) == 0; reading behind the list gives zero. *)
Fixpoint strncmp0 (n : nat) (a b : list Z) : bool :=
  match n with
  | O => true
  | S k => if hd 0 a =? hd 0 b then (if hd 0 a =? 0 then true else strncmp0 k (tl a) (tl b)) else false
  end.

(** strchr (s, '.'): what is behind the first dot. *)
Fixpoint after_dot (s : list Z) : option (list Z) :=
  match s with
  | [] => None
  | x :: r => if x =? 46 then Some r else after_dot r
  end.

(** * Names of the neighbour *)

(** pf_lldp.c:768-828 pf_lldp_get_peer_station_name: the name; the result is 0 if
    it is not empty. *)
Definition peer_station (p : peer) : list Z :=
  match (if i_valid (p_pid p) then after_dot (cstr (i_str (p_pid p))) else None) with
  | Some st => snprintf 241 st
  | None =>
    if i_valid (p_cid p) then
      if i_sub (p_cid p) =? 4 then snprintf 241 (mac_string (firstn 6 (i_str (p_cid p))))
      else snprintf 241 (cstr (i_str (p_cid p)))
    else []
  end.

(** pf_lldp.c:1764-1806 pf_lldp_generate_alias_name, called with an array of [size]
    bytes; None for the result -1.  Storing a string that does not fit in the array
    is undefined ([store]). *)
Definition store (size : Z) (s : list Z) : outcome (option (list Z)) :=
  if Z.of_nat (length s) <? size then Ok (Some s) else Ub.
Definition alias_name (size : Z) (port chassis : list Z) : outcome (option (list Z)) :=
  match after_dot port with
  | Some _ => if size <=? Z.of_nat (length port) then Ok None else store size port
  | None =>
    if size <=? Z.of_nat (length port) + Z.of_nat (length chassis) + 1 then Ok None
    else
      let res := port ++ [46] ++ chassis in
      if size <=? Z.of_nat (length res) then Ok None else store size res
  end.

(** * State of a port *)

(** pf_types.h:2764 pf_check_peer_t: the wanted names, of
    length_peer_port_name and length_peer_station_name bytes. *)
Record wanted := mkWanted { w_port : list Z; w_station : list Z }.

(** pf_types.h:2842-2920 pf_pdport_t, pf_lldp_port_t, pf_port_t.  A timer is the
    time at which it is due; the three diagnoses of the port are kept here; adding
    a diagnosis is taken to succeed (see C34 for when it does not). *)
Record port := mkPort {
  o_recv : bool;               (** is_peer_info_received *)
  o_info : peer;               (** peer_info *)
  o_rx : option Z;             (** rx_timeout *)
  o_tx : option Z;             (** tx_timeout *)
  o_upd : bool;                (** lldp_peer_info_updated *)
  o_chk : option wanted;       (** check *)
  o_adj : option bool;         (** adjust: do_not_send_LLDP_frames *)
  o_nopeer : bool; o_badport : bool; o_badstation : bool;   (** the diagnoses *)
  o_up : bool;                 (** previous_is_link_up *)
  o_file : option (option wanted * option bool);  (** the file of the port *)
  o_sent : list Z              (** when frames were sent, newest first *)
}.

Definition set_rx s v := mkPort (o_recv s) (o_info s) v (o_tx s) (o_upd s) (o_chk s) (o_adj s) (o_nopeer s) (o_badport s) (o_badstation s) (o_up s) (o_file s) (o_sent s).
Definition set_tx s v := mkPort (o_recv s) (o_info s) (o_rx s) v (o_upd s) (o_chk s) (o_adj s) (o_nopeer s) (o_badport s) (o_badstation s) (o_up s) (o_file s) (o_sent s).
Definition set_upd s v := mkPort (o_recv s) (o_info s) (o_rx s) (o_tx s) v (o_chk s) (o_adj s) (o_nopeer s) (o_badport s) (o_badstation s) (o_up s) (o_file s) (o_sent s).
Definition set_peer s r v := mkPort r v (o_rx s) (o_tx s) (o_upd s) (o_chk s) (o_adj s) (o_nopeer s) (o_badport s) (o_badstation s) (o_up s) (o_file s) (o_sent s).
Definition set_chk s v := mkPort (o_recv s) (o_info s) (o_rx s) (o_tx s) (o_upd s) v (o_adj s) (o_nopeer s) (o_badport s) (o_badstation s) (o_up s) (o_file s) (o_sent s).
Definition set_adj s v := mkPort (o_recv s) (o_info s) (o_rx s) (o_tx s) (o_upd s) (o_chk s) v (o_nopeer s) (o_badport s) (o_badstation s) (o_up s) (o_file s) (o_sent s).
Definition set_diag s a b c := mkPort (o_recv s) (o_info s) (o_rx s) (o_tx s) (o_upd s) (o_chk s) (o_adj s) a b c (o_up s) (o_file s) (o_sent s).
Definition set_up s v := mkPort (o_recv s) (o_info s) (o_rx s) (o_tx s) (o_upd s) (o_chk s) (o_adj s) (o_nopeer s) (o_badport s) (o_badstation s) v (o_file s) (o_sent s).
Definition set_file s v := mkPort (o_recv s) (o_info s) (o_rx s) (o_tx s) (o_upd s) (o_chk s) (o_adj s) (o_nopeer s) (o_badport s) (o_badstation s) (o_up s) v (o_sent s).
Definition add_sent s t := mkPort (o_recv s) (o_info s) (o_rx s) (o_tx s) (o_upd s) (o_chk s) (o_adj s) (o_nopeer s) (o_badport s) (o_badstation s) (o_up s) (o_file s) (t :: o_sent s).

(** memcmp of two pf_lldp_peer_info_t (padding bytes are left out). *)
Definition lid_eq_dec : forall a b : lid, {a = b} + {a <> b}.
Proof. decide equality; try apply Z.eq_dec; try apply bool_dec; apply (list_eq_dec Z.eq_dec). Defined.
Definition peer_eq_dec : forall a b : peer, {a = b} + {a <> b}.
Proof.
  decide equality; try apply Z.eq_dec; try apply (list_eq_dec Z.eq_dec); try apply lid_eq_dec;
    decide equality; try apply Z.eq_dec; try apply bool_dec; apply (list_eq_dec Z.eq_dec).
Defined.

(** * Timers *)

(** The time after which a timer of the scheduler is due (pf_scheduler.c:309-312);
    [cyc] is the cycle time of pnet_handle_periodic(). *)
Definition wait (cyc d : Z) : Z := match sanitize_delay d cyc true with Ok v => v | _ => 0 end.

(** A timer that is running is removed first, and its entry is used again;
    otherwise a free entry is needed ([room]). *)
Definition start (cyc t d : Z) (room : bool) (old : option Z) : option Z :=
  match old with
  | Some _ => Some (t + wait cyc d)
  | None => if room then Some (t + wait cyc d) else None
  end.

(** pf_lldp.c:508-545 pf_lldp_restart_peer_timeout (LLDP_PEER_MAX_TTL_IN_SECS is
    60). *)
Definition restart_rx (cyc t : Z) (room : bool) (secs : Z) (s : port) : port :=
  if 60 <? secs then set_rx s None else set_rx s (start cyc t (secs * 1000000) room (o_rx s)).

(** pf_lldp.c:1122-1145 pf_lldp_tx_restart with send = true, 1170-1178
    pf_lldp_send_enable; PF_LLDP_SEND_INTERVAL is 5000 ms.  A frame is taken to be
    sent (pnal_buf_alloc succeeds). *)
Definition send_enable (cyc t : Z) (room : bool) (s : port) : port :=
  add_sent (set_tx s (start cyc t 5000000 room (o_tx s))) t.
(** pf_lldp.c:1180-1190 pf_lldp_send_disable. *)
Definition send_disable (s : port) : port := set_tx s None.

(** * Neighbour *)

(** pf_lldp.c:460-474 pf_lldp_invalidate_peer_info. *)
Definition unvalid (c : lid) : lid := mkLid (i_str c) (i_sub c) false (i_len c).
Definition invalid (p : peer) : peer :=
  mkPeer (unvalid (p_cid p)) (unvalid (p_pid p)) 0 (mkPdesc (d_str (p_desc p)) false (d_len (p_desc p)))
    (let g := p_mgmt p in mkMgmt (g_val g) (g_sub g) (g_len g) (g_ifsub g) (g_ifval g) false)
    (let y := p_delay p in mkDelay (y_rxl y) (y_rxr y) (y_txl y) (y_txr y) (y_cable y) false)
    (p_status p) (p_mac p) (let k := p_phy p in mkLstat (k_sup k) (k_ena k) (k_cap k) (k_mau k) false).
Definition invalidate (s : port) : port := set_peer s false (invalid (o_info s)).

(** pf_lldp.c:490-506 pf_lldp_receive_timeout; pf_pdport.c:1434-1438
    pf_pdport_peer_indication. *)
Definition rx_expired (s : port) : port := set_upd (invalidate (set_rx s None)) true.

(** pf_lldp.c:1854-1869 pf_lldp_store_peer_info and 1882-1958 pf_lldp_update_peer
    (without the time stamp). *)
Definition update_peer (cyc t : Z) (room : bool) (p : peer) (s : port) : port :=
  let s := restart_rx cyc t room (p_ttl p) s in
  if peer_eq_dec p (o_info s) then s else set_upd (set_peer s true p) true.

(** pf_lldp.c:1960-2036 pf_lldp_recv.  The result does not depend on the
    uninitialised organisation header (C99_only_received). *)
Definition recv (ds cyc t : Z) (room : bool) (buf : list Z) (s : port) : port :=
  match parse ds ([0; 0; 0], 0) buf (Z.of_nat (length buf)) with
  | Ok (Some p) => update_peer cyc t room p s
  | _ => s
  end.

(** * Topology check *)

(** pf_pdport.c:757-797 pf_pdport_check_no_peer_detected; pf_lldp.c:568-582
    pf_lldp_get_peer_timestamp. *)
Definition check_nopeer (s : port) : port := set_diag s (negb (o_recv s)) (o_badport s) (o_badstation s).
(** pf_pdport.c:889-948 pf_pdport_check_peer_port_name. *)
Definition check_port (w : wanted) (s : port) : port :=
  let i := p_pid (o_info s) in
  if i_valid i then
    set_diag s (o_nopeer s) (negb (strncmp0 (length (w_port w)) (i_str i) (w_port w ++ [0]))) (o_badstation s)
  else s.
(** pf_pdport.c:813-873 pf_pdport_check_peer_station_name. *)
Definition check_station (w : wanted) (s : port) : port :=
  let n := peer_station (o_info s) in
  if Z.of_nat (length n) =? 0 then s
  else set_diag s (o_nopeer s) (o_badport s) (negb (strncmp0 (length n) n (w_station w ++ [0]))).
(** pf_pdport.c:964-982 pf_pdport_run_peer_check. *)
Definition run_check (s : port) : port :=
  match o_chk s with
  | Some w => check_station w (check_port w (check_nopeer s))
  | None => s
  end.

(** * Handling *)

(** pnet_api.c:153-156: pf_scheduler_tick (the two timers of the port) and
    pf_pdport.c:1111-1132 pf_pdport_periodic.  In pf_lldp.c:1089-1111
    pf_lldp_trigger_sending the entry of the timer that fired is free again, so
    starting it succeeds. *)
Definition due (t : Z) (x : option Z) : bool := match x with Some d => d <=? t | None => false end.
Definition handle (cyc t : Z) (s : port) : port :=
  let s := if due t (o_rx s) then rx_expired s else s in
  let s := if due t (o_tx s) then set_tx (add_sent s t) (Some (t + wait cyc 5000000)) else s in
  if o_upd s then run_check (set_upd s false) else s.

(** pf_pdport.c:994-1048 pf_pdport_handle_link_down, pf_pdport_monitor_link. *)
Definition monitor (running : bool) (s : port) : port :=
  let s := if o_up s && negb running then set_upd (invalidate (set_rx s None)) true else s in
  set_up s running.

(** pf_pdport.c:1149-1232 pf_pdport_write_data_check, after parsing. *)
Definition write_check (w : wanted) (s : port) : port := run_check (set_chk s (Some w)).
(** pf_pdport.c:1249-1317 pf_pdport_write_data_adj, after parsing. *)
Definition write_adjust (cyc t : Z) (room off : bool) (s : port) : port :=
  let s := set_adj s (Some off) in
  if off then send_disable s else send_enable cyc t room s.
(** pf_pdport.c:382-402 pf_pdport_reset_all: clears the record and the diagnoses. *)
Definition reset (s : port) : port := set_diag (set_adj (set_chk (set_upd s false) None) None) false false false.
(** pf_cmdev.c:4834-4836; pf_pdport.c:415-443 pf_pdport_ar_connect_ind. *)
Definition connect (cyc t : Z) (room : bool) (s : port) : port :=
  let s := reset s in
  match o_adj s with
  | Some true => send_disable s
  | Some false => send_enable cyc t room s
  | None => s
  end.
(** pf_pdport.c:445-478 pf_pdport_lldp_restart_transmission; called after a DCP
    Get or Set request (pf_dcp.c:1111) and a successful connect
    (pf_cmrpc.c:2107). *)
Definition restart_tx (cyc t : Z) (room : bool) (s : port) : port :=
  match o_adj s with
  | Some true => send_disable s
  | _ => send_enable cyc t room s
  end.

(** A start of the device: pf_lldp.c:1147-1168 pf_lldp_init; pf_pdport.c:78-160
    pf_pdport_load and 362-380 pf_pdport_init (a missing file is created).  The
    scheduler is empty, so there is room. *)
Definition boot (ds cyc t : Z) (file : option (option wanted * option bool)) (sent : list Z) : port :=
  match file with
  | Some (c, a) =>
    let s := mkPort false (peer0 ds) None None false c a false false false false file sent in
    let s := match c with Some _ => restart_rx cyc t true 0 s | None => s end in
    match a with
    | Some true => send_disable s
    | _ => send_enable cyc t true s
    end
  | None => send_enable cyc t true (mkPort false (peer0 ds) None None false None None false false false false (Some (None, None)) sent)
  end.

(** What can happen at a port. *)
Inductive event :=
| Frame (buf : list Z) (room : bool)      (** an LLDP frame is received *)
| Handle                                  (** pnet_handle_periodic() *)
| Monitor (running : bool)                (** the link monitor looks at the port *)
| WriteCheck (w : wanted)                 (** the controller writes the wanted neighbour *)
| WriteAdjust (off room : bool)           (** the controller switches sending off or on *)
| Reset                                   (** factory reset *)
| Connect (room : bool)                   (** a controller wants to connect *)
| RestartTx (room : bool)                 (** connect succeeded, or DCP Get or Set *)
| Save                                    (** the background job writes the file *)
| Restart.                                (** the device is started again *)

Definition step (ds cyc : Z) (s : port) (x : Z * event) : port :=
  let '(t, e) := x in
  match e with
  | Frame buf room => recv ds cyc t room buf s
  | Handle => handle cyc t s
  | Monitor running => monitor running s
  | WriteCheck w => write_check w s
  | WriteAdjust off room => write_adjust cyc t room off s
  | Reset => reset s
  | Connect room => connect cyc t room s
  | RestartTx room => restart_tx cyc t room s
  | Save => set_file s (Some (o_chk s, o_adj s))
  | Restart => boot ds cyc t (o_file s) (o_sent s)
  end.
Definition run (ds cyc : Z) (l : list (Z * event)) (s : port) : port := fold_left (step ds cyc) l s.

(** * Alias *)

(** pf_lldp.c:1808-1838 pf_lldp_is_alias_matching over the ports of the device
    (PF_ALIAS_NAME_MAX_SIZE is 256); the alias is a terminated string. *)
Fixpoint alias_matching (ports : list port) (alias : list Z) : outcome bool :=
  match ports with
  | [] => Ok false
  | s :: r =>
    if o_recv s then
      do a <- alias_name 256 (cstr (i_str (p_pid (o_info s)))) (cstr (i_str (p_cid (o_info s))));
      match a with
      | Some n => if list_eq_dec Z.eq_dec alias n then Ok true else alias_matching r alias
      | None => alias_matching r alias
      end
    else alias_matching r alias
  end.

(** * Reading port data *)

(** What is written to the answer: a block for a port or for the interface. *)
Inductive block := BReal (p : Z) | BAdjust (p : Z) | BCheck (p : Z) | BInterface | BMulti (p : Z) | BStat (p : Z) | BMode.

(** pf_pdport.c:480-746 pf_pdport_read_ind: the result and the blocks.  [n] is the
    number of ports; the functions say for which ports the data are active and can
    be read.  The loops take one unit of fuel per round: None when it is used up. *)
Section Read.
Variables (n : Z) (chk adj stat : Z -> bool) (mode : bool).

(** Lines 577-597: the loop does not ask for the next port. *)
Fixpoint check_loop (fuel : nat) (p : Z) : option (list block) :=
  match fuel with
  | O => None
  | S k =>
    if negb (p =? 0) then
      match check_loop k p with
      | Some l => Some (if chk p then BCheck p :: l else l)
      | None => None
      end
    else Some []
  end.
(** Lines 622-662. *)
Fixpoint real_loop (fuel : nat) (p : Z) (i : iter) : option (list block) :=
  match fuel with
  | O => None
  | S k =>
    if negb (p =? 0) then
      let '(p', i') := get_next i in
      match real_loop k p' i' with
      | Some l => Some (BMulti p :: l)
      | None => None
      end
    else Some []
  end.

Definition read_ind (fuel : nat) (slot subslot index : Z) : option (Z * list block) :=
  let p := subslot_to_port n subslot in
  let isport := (slot =? 0) && subslot_is_port n subslot in
  if index =? 32810 then if isport then Some (0, [BReal p]) else Some (-1, [])
  else if index =? 32815 then if isport then Some (0, if adj p then [BAdjust p] else []) else Some (-1, [])
  else if index =? 32811 then
    if isport then Some (0, if chk p then [BCheck p] else [])
    else if (slot =? 0) && (subslot =? 0) then
      let '(q, _) := get_next (iter_init n) in
      match check_loop fuel q with Some l => Some (0, l) | None => None end
    else Some (-1, [])
  else if index =? 63553 then
    let '(q, i) := get_next (iter_init n) in
    match real_loop fuel q i with Some l => Some (0, BInterface :: l) | None => None end
  else if index =? 63554 then Some (0, [])
  else if index =? 32882 then
    if (slot =? 0) && ((subslot =? 32768) || subslot_is_port n subslot) then
      if stat p then Some (0, [BStat p]) else Some (-1, [])
    else Some (-1, [])
  else if index =? 32881 then
    if (slot =? 0) && (subslot =? 32768) then Some (0, if mode then [BMode] else []) else Some (-1, [])
  else Some (-1, []).
End Read.
