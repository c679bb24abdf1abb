(** Model of LLDP frames: src/common/pf_lldp.c (parsing and construction). *)
From Coq Require Import List ZArith Arith Bool.
From Verif Require Import Base CpmModel PpmModel BlockModel.
Import ListNotations.
Local Open Scope Z_scope.

(** * What is known about a neighbour *)

(** pf_lldp.h:101-144 pf_lldp_chassis_id_t and pf_lldp_port_id_t: the array (241
    and 256 bytes, pnet_api.h PNET_LLDP_CHASSIS_ID_MAX_SIZE and
    PNET_LLDP_PORT_ID_MAX_SIZE) with its whole content. *)
Record lid := mkLid { i_str : list Z; i_sub : Z; i_valid : bool; i_len : Z }.
Definition cid_size : Z := 241.
Definition pid_size : Z := 256.

(** pf_lldp.h:61-66 pf_lldp_port_description_t.  The size of the array is a
    configuration value (PNET_MAX_PORT_DESCRIPTION_SIZE, at most 256 by
    pf_lldp.c:45): the parameter [ds] below. *)
Record pdesc := mkPdesc { d_str : list Z; d_valid : bool; d_len : Z }.

(** pf_lldp.h:159-179 pf_lldp_management_address_t (interface number flattened;
    the signed 32 bit number is kept as unsigned). *)
Record mgmt := mkMgmt { g_val : list Z; g_sub : Z; g_len : Z; g_ifsub : Z; g_ifval : Z; g_valid : bool }.

(** pf_lldp.h:217-225 pf_lldp_signal_delay_t. *)
Record delay := mkDelay { y_rxl : Z; y_rxr : Z; y_txl : Z; y_txr : Z; y_cable : Z; y_valid : bool }.

(** pf_lldp.h:40-47 pf_lldp_link_status_t. *)
Record lstat := mkLstat { k_sup : bool; k_ena : bool; k_cap : Z; k_mau : Z; k_valid : bool }.

(** pf_lldp.h:249-263 pf_lldp_peer_info_t (line_delay is never used). *)
Record peer := mkPeer { p_cid : lid; p_pid : lid; p_ttl : Z; p_desc : pdesc; p_mgmt : mgmt; p_delay : delay;
  p_status : list Z; p_mac : list Z; p_phy : lstat }.

Definition zeros (n : Z) : list Z := repeat 0 (Z.to_nat n).
Definition lid0 (size : Z) : lid := mkLid (zeros size) 0 false 0.
Definition mgmt0 : mgmt := mkMgmt (zeros 31) 0 0 0 0 false.
Definition delay0 : delay := mkDelay 0 0 0 0 0 false.
Definition lstat0 : lstat := mkLstat false false 0 0 false.

(** memset of the whole record (pf_lldp.c:1632). *)
Definition peer0 (ds : Z) : peer :=
  mkPeer (lid0 cid_size) (lid0 pid_size) 0 (mkPdesc (zeros ds) false 0) mgmt0 delay0 (zeros 4) (zeros 6) lstat0.

Definition with_cid p v := mkPeer v (p_pid p) (p_ttl p) (p_desc p) (p_mgmt p) (p_delay p) (p_status p) (p_mac p) (p_phy p).
Definition with_pid p v := mkPeer (p_cid p) v (p_ttl p) (p_desc p) (p_mgmt p) (p_delay p) (p_status p) (p_mac p) (p_phy p).
Definition with_ttl p v := mkPeer (p_cid p) (p_pid p) v (p_desc p) (p_mgmt p) (p_delay p) (p_status p) (p_mac p) (p_phy p).
Definition with_desc p v := mkPeer (p_cid p) (p_pid p) (p_ttl p) v (p_mgmt p) (p_delay p) (p_status p) (p_mac p) (p_phy p).
Definition with_mgmt p v := mkPeer (p_cid p) (p_pid p) (p_ttl p) (p_desc p) v (p_delay p) (p_status p) (p_mac p) (p_phy p).
Definition with_delay p v := mkPeer (p_cid p) (p_pid p) (p_ttl p) (p_desc p) (p_mgmt p) v (p_status p) (p_mac p) (p_phy p).
Definition with_status p v := mkPeer (p_cid p) (p_pid p) (p_ttl p) (p_desc p) (p_mgmt p) (p_delay p) v (p_mac p) (p_phy p).
Definition with_mac p v := mkPeer (p_cid p) (p_pid p) (p_ttl p) (p_desc p) (p_mgmt p) (p_delay p) (p_status p) v (p_phy p).
Definition with_phy p v := mkPeer (p_cid p) (p_pid p) (p_ttl p) (p_desc p) (p_mgmt p) (p_delay p) (p_status p) (p_mac p) v.

(** * Parsing *)

(** `*offset += n`: the offset is a uint16_t. *)
Definition advance (n : Z) : reader unit := fun r => Ok (tt, set_pos r (u16 (r_pos r + n))).
(** `parse_info->result = PF_PARSE_ERROR`. *)
Definition fail_parse : reader unit := fun r => Ok (tt, set_res r PError).

(** pf_lldp.c:157-178 pf_lldp_get_tlv_from_packet: type and length; type 0 and
    length 0 if the header cannot be read. *)
Definition get_tlv : reader (Z * Z) := fun r =>
  do x <- get_u16 r;
  let '(h, r') := x in
  if is_ok (r_res r') then Ok ((Z.shiftr (Z.land h 65024) 9, Z.land h 511), r') else Ok ((0, 0), r').

(** pf_lldp.c:1203-1210 pf_lldp_get_org_header_from_packet; [o] is the previous
    content. *)
Definition get_org (o : list Z * Z) : reader (list Z * Z) :=
  rdo i <- get_mem_into 3 (fst o) 3; rdo s <- get_byte; rret (i, s).

(** pf_lldp.c:1225-1263 pf_lldp_get_chassis_id_from_packet and 1278-1316
    pf_lldp_get_port_id_from_packet (the same code for arrays of another size). *)
Definition get_id (size n : Z) (c : lid) : reader lid :=
  if n =? 0 then rret c
  else
    let len := n - 1 in
    if size - 1 <? len then rdo _ <- advance n; rret (mkLid (i_str c) (i_sub c) (i_valid c) len)
    else rdo s <- get_byte; rdo v <- get_mem_into size (i_str c) len; rdo v' <- put_nul v len; rret (mkLid v' s true len).

(** pf_lldp.c:1330-1349 pf_lldp_get_ttl_from_packet. *)
Definition get_ttl (n old : Z) : reader Z := if negb (n =? 2) then rdo _ <- fail_parse; rret old else get_u16.

(** pf_lldp.c:1363-1388 pf_lldp_get_port_description_from_packet. *)
Definition get_desc (ds n : Z) (d : pdesc) : reader pdesc :=
  if ds - 1 <? n then rdo _ <- advance n; rret d
  else rdo v <- get_mem_into ds (d_str d) n; rdo v' <- put_nul v n; rret (mkPdesc v' true n).

(** pf_lldp.c:1408-1448 pf_lldp_get_management_address_from_packet.  The length is
    a size_t: a length byte of 0 gives a very large number. *)
Definition get_mgmt (n : Z) : reader mgmt :=
  rdo b <- get_byte;
  let len := if b =? 0 then 18446744073709551615 else b - 1 in
  if (len <? 1) || (31 <? len) then rdo _ <- advance (n - 1); rret (mkMgmt (zeros 31) 0 len 0 0 false)
  else
    rdo s <- get_byte; rdo v <- get_mem_into 31 (zeros 31) len; rdo is <- get_byte; rdo iv <- get_u32;
    rdo oid <- get_byte; rdo _ <- advance oid; rret (mkMgmt v s len is iv true).

(** pf_lldp.c:562-566 pf_lldp_management_address_is_ipv4. *)
Definition is_ipv4 (g : mgmt) : bool := g_valid g && (g_sub g =? 1) && (g_len g =? 4).

(** pf_lldp.c:1468-1487 pf_lldp_get_signal_delay_from_packet. *)
Definition get_delay (n : Z) (d : delay) : reader delay :=
  if negb (n =? 24) then rdo _ <- fail_parse; rret d
  else rdo a <- get_u32; rdo b <- get_u32; rdo c <- get_u32; rdo e <- get_u32; rdo f <- get_u32; rret (mkDelay a b c e f true).

(** pf_lldp.c:1504-1519 pf_lldp_get_port_status_from_packet. *)
Definition get_status (n : Z) (s : list Z) : reader (list Z) :=
  if negb (n =? 8) then rdo _ <- fail_parse; rret s else get_mem_into 4 s 4.

(** pf_lldp.c:1535-1553 pf_lldp_get_chassis_mac_from_packet. *)
Definition get_mac (n : Z) (m : list Z) : reader (list Z) :=
  if negb (n =? 10) then rdo _ <- fail_parse; rret m else get_mem_into 6 m 6.

(** pf_lldp.c:1572-1601 pf_lldp_get_link_status_from_packet. *)
Definition get_phy (n : Z) : reader lstat :=
  if negb (n =? 9) then rdo _ <- fail_parse; rret lstat0
  else rdo a <- get_byte; rdo c <- get_u16; rdo m <- get_u16; rret (mkLstat (Z.testbit a 0) (Z.testbit a 1) c m true).

(** pf_lldp.c org_id_pnio, org_id_ieee_8023. *)
Definition org_pnio : list Z := [0; 14; 207].
Definition org_ieee : list Z := [0; 18; 15].
Fixpoint bytes_eqb (a b : list Z) : bool :=
  match a, b with
  | [], [] => true
  | x :: a', y :: b' => (x =? y) && bytes_eqb a' b'
  | _, _ => false
  end.

(** pf_lldp.c:1643-1727: the body of the loop of pf_lldp_parse_packet for one
    element of type [t] and length [n]; [o] is the organisation header left by the
    rounds before. *)
Definition one_tlv (ds t n : Z) (o : list Z * Z) (p : peer) : reader (peer * (list Z * Z)) :=
  if t =? 1 then rdo c <- get_id cid_size n (p_cid p); rret (with_cid p c, o)
  else if t =? 2 then rdo c <- get_id pid_size n (p_pid p); rret (with_pid p c, o)
  else if t =? 3 then rdo x <- get_ttl n (p_ttl p); rret (with_ttl p x, o)
  else if t =? 4 then rdo d <- get_desc ds n (p_desc p); rret (with_desc p d, o)
  else if t =? 8 then rdo g <- get_mgmt n; rret (if is_ipv4 g then with_mgmt p g else p, o)
  else if t =? 127 then
    rdo o' <- get_org o;
    if bytes_eqb org_pnio (fst o') then
      if snd o' =? 1 then rdo d <- get_delay n (p_delay p); rret (with_delay p d, o')
      else if snd o' =? 2 then rdo s <- get_status n (p_status p); rret (with_status p s, o')
      else if snd o' =? 5 then rdo m <- get_mac n (p_mac p); rret (with_mac p m, o')
      else rdo _ <- advance (n - 4); rret (p, o')
    else if bytes_eqb org_ieee (fst o') then
      if snd o' =? 1 then rdo k <- get_phy n; rret (with_phy p k, o')
      else rdo _ <- advance (n - 4); rret (p, o')
    else rdo _ <- advance (n - 4); rret (p, o')
  else rdo _ <- advance n; rret (p, o).

(** pf_lldp.c:1639-1730: the loop.  [fuel] bounds the number of rounds; C99 shows
    that it never runs out. *)
Fixpoint tlvs (fuel : nat) (ds : Z) (o : list Z * Z) (p : peer) : reader peer :=
  match fuel with
  | O => fun _ => Ub
  | S k =>
      rdo tn <- get_tlv;
      if fst tn =? 0 then rret p
      else rdo po <- one_tlv ds (fst tn) (snd tn) o p; tlvs k ds (snd po) (fst po)
  end.

(** pf_lldp.c:1613-1749 pf_lldp_parse_packet: None for the result -1.  [o] is the
    uninitialised organisation header. *)
Definition parse (ds : Z) (o : list Z * Z) (buf : list Z) (len : Z) : outcome (option peer) :=
  do x <- tlvs (S (Z.to_nat len)) ds o (peer0 ds) (mkRd (Some buf) len true POk 0);
  let '(p, r) := x in Ok (if is_ok (r_res r) then Some p else None).

(** * Construction *)

(** What a device says about itself. *)
Record me := mkMe {
  m_legacy : bool;            (** name_of_device_mode.mode *)
  m_station : list Z;         (** the station name, without termination *)
  m_port : list Z;            (** port_name of the port, without termination *)
  m_descr : list Z;           (** pf_lldp_get_system_description *)
  m_mac : list Z;             (** MAC address of the device *)
  m_portmac : list Z;         (** MAC address of the port *)
  m_ip : Z;                   (** IP address *)
  m_ifindex : Z;              (** pnal_get_interface_index *)
  m_sup : bool; m_ena : bool; m_cap : Z; m_mau : Z (** link status *)
}.

(** pf_lldp.c:951-966 pf_lldp_mac_address_to_string ("%02X-..." for six bytes). *)
Definition hex1 (x : Z) : Z := if x <? 10 then 48 + x else 55 + x.
Definition hex2 (x : Z) : list Z := [hex1 (x / 16); hex1 (x mod 16)].
Definition mac_string (m : list Z) : list Z :=
  match m with
  | [] => []
  | a :: t => hex2 a ++ flat_map (fun x => 45 :: hex2 x) t
  end.

(** pf_lldp.c:584-630 pf_lldp_get_chassis_id: subtype and content. *)
Definition my_chassis (d : me) : Z * list Z :=
  if m_legacy d then
    let n := Z.of_nat (length (m_station d)) in
    if (n =? 0) || (cid_size <=? n) then (4, m_mac d) else (7, m_station d)
  else (7, m_descr d).

(** snprintf to an array of [size] bytes: at most size - 1 characters. *)
Definition snprintf (size : Z) (s : list Z) : list Z := firstn (Z.to_nat (size - 1)) s.

(** pf_lldp.c:646-690 pf_lldp_get_port_id. *)
Definition my_port (d : me) : Z * list Z :=
  if m_legacy d then (7, snprintf pid_size (m_port d))
  else
    let st := match m_station d with [] => snprintf 241 (mac_string (m_mac d)) | s => s end in
    (7, snprintf pid_size (m_port d ++ [46] ++ st)).

(** pf_types.h:69 PF_FRAME_BUFFER_SIZE. *)
Definition frame_size : Z := 1500.

(** pf_lldp.c:134-142 pf_lldp_add_tlv_header: the length argument is a uint8_t. *)
Definition add_head (t n : Z) : writer := put_u16 true (u16 (Z.shiftl t 9 + Z.land (u8 n) 511)).
(** pf_lldp.c:221-230 pf_lldp_add_pnio_header, 244-253 pf_lldp_add_ieee_header. *)
Definition add_pnio (n : Z) : writer := add_head 127 (u8 n + 3) ;; put_byte 0 ;; put_byte 14 ;; put_byte 207.
Definition add_ieee (n : Z) : writer := add_head 127 (u8 n + 3) ;; put_byte 0 ;; put_byte 18 ;; put_byte 15.
(** pf_lldp.c:263-280 pf_lldp_add_chassis_id_tlv, 289-302 pf_lldp_add_port_id_tlv. *)
Definition add_id (t : Z) (i : Z * list Z) : writer :=
  add_head t (1 + Z.of_nat (length (snd i))) ;; put_byte (fst i) ;; put_mem (snd i).
(** pf_lldp.c:310-314 pf_lldp_add_ttl_tlv. *)
Definition add_ttl : writer := add_head 3 2 ;; put_u16 true 20.
(** pf_lldp.c:326-341 pf_lldp_add_port_status. *)
Definition add_status (a b : Z) : writer := add_pnio 5 ;; put_byte 2 ;; put_u16 true a ;; put_u16 true b.
(** pf_lldp.c:352-366 pf_lldp_add_chassis_mac: the memcpy is not bounded by the
    buffer size; it is modelled by the bounded copy, which does the same inside the
    buffer. *)
Definition add_mac (m : list Z) : writer := add_pnio 7 ;; put_byte 5 ;; put_mem m.
(** pf_lldp.c:380-413 pf_lldp_add_ieee_mac_phy. *)
Definition add_phy (d : me) : writer :=
  add_ieee 6 ;; put_byte 1 ;; put_byte ((if m_sup d then 1 else 0) + (if m_ena d then 2 else 0)) ;;
  put_u16 true (m_cap d) ;; put_u16 true (m_mau d).
(** pf_lldp.c:736-752 pf_lldp_get_management_address and 426-458
    pf_lldp_add_management (address of four bytes). *)
Definition add_mgmt (d : me) : writer :=
  add_head 8 12 ;; put_byte (1 + 4) ;; put_byte 1 ;; put_u32 true (m_ip d) ;; put_byte 2 ;;
  put_u32 true (m_ifindex d) ;; put_byte 0.

(** pf_lldp.c:979-1047 pf_lldp_construct_frame. *)
Definition construct (d : me) : writer :=
  put_mem [1; 128; 194; 0; 0; 14] ;; put_mem (m_portmac d) ;; put_u16 true 35020 ;;
  add_id 1 (my_chassis d) ;; add_id 2 (my_port d) ;; add_ttl ;;
  add_status 0 0 ;; add_mac (m_mac d) ;; add_phy d ;; add_mgmt d ;; add_head 0 0.
