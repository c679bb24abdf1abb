(** Model of the endpoint mapper: src/device/pf_cmrpc_epm.c, its part of pf_cmrpc.c
    (3104-3147) and the writers of src/device/pf_block_writer.c 4421-4862. *)
From Coq Require Import List ZArith Arith Bool.
From Verif Require Import Base BlockModel.
Import ListNotations.
Local Open Scope Z_scope.

(** What is used of pnet_cfg_t, and the MAC address of the main port.  Strings are lists of
    bytes without the terminator. *)
Record ecfg := mkEcfg { g_product : list Z; g_order : list Z; g_hw : Z; g_prefix : Z; g_sw1 : Z; g_sw2 : Z; g_sw3 : Z;
  g_dev_hi : Z; g_dev_lo : Z; g_ven_hi : Z; g_ven_lo : Z; g_mac : list Z }.

(** pf_types.h:381-390 pf_rpc_uuid_type_t. *)
Record ruuid := mkRuuid { v_low : Z; v_mid : Z; v_hi : Z; v_clock : Z; v_clock_low : Z; v_node : list Z }.
Definition zero_uuid : ruuid := mkRuuid 0 0 0 0 0 [0; 0; 0; 0; 0; 0].
(** pf_cmrpc_epm.c:27-65: the constants. *)
Definition uuid_epm : ruuid := mkRuuid 3786375944 23839 4553 145 164 [8; 0; 43; 20; 160; 250].
Definition uuid_pnio : ruuid := mkRuuid 3735027713 27799 4561 130 113 [0; 160; 36; 66; 223; 125].
Definition uuid_instance (node : list Z) : ruuid := mkRuuid 3735027712 27799 4561 130 113 node.
Definition uuid_ndr : ruuid := mkRuuid 2324192516 7403 4553 159 232 [8; 0; 43; 16; 72; 96].

(** pf_types.h:448-461 pf_rpc_lookup_req_t: the fields that are used;
    pf_block_reader.c:817-832 pf_get_epm_lookup_request with 168-184 pf_get_handle. *)
Record lookup := mkLookup { l_inquiry : Z; l_max : Z }.
Definition get_lookup : reader lookup :=
  rdo i <- get_u32; rdo _ <- get_u32; rdo _ <- get_uuid (repeat 0 8); rdo _ <- get_u32; rdo _ <- get_uuid (repeat 0 8);
  rdo _ <- get_u16; rdo _ <- get_u16; rdo _ <- get_u32;
  rdo _ <- get_u32; rdo _ <- get_u32; rdo _ <- get_u16; rdo _ <- get_u16; rdo _ <- get_byte; rdo _ <- get_byte; rdo _ <- get_mem_into 6 (repeat 0 6) 6;
  rdo m <- get_u32; rret (mkLookup i m).

(** pf_cmrpc_epm.c:73-91 pf_generate_epm_handle: the masked parts of the time are cut to 16
    bits. *)
Definition epm_handle (now : Z) (mac : list Z) : ruuid :=
  mkRuuid (Z.land now 65535) (u16 (Z.land now 16711680)) (u16 (Z.lor (Z.land now 4278190080) 4096)) 128 12 mac.

(** htons and htonl of the host; [hbe]: the host is big-endian. *)
Definition swap16 (v : Z) : Z := v mod 256 * 256 + v / 256.
Definition hton16 (hbe : bool) (v : Z) : Z := if hbe then v else swap16 v.
Definition hton32 (hbe : bool) (v : Z) : Z := if hbe then v else swap16 (v mod 65536) * 65536 + swap16 (v / 65536).

(** pf_types.h:392-432 pf_rpc_tower_t; pf_cmrpc_epm.c:100-143 pf_init_rpc_tower_entry. *)
Record tower := mkTower { w_if : ruuid; w_if_version : Z; w_port : Z; w_ip : Z }.
Definition init_tower (hbe : bool) (epm : bool) (port ip : Z) : tower :=
  if epm then mkTower uuid_epm 3 (hton16 hbe port) (hton32 hbe ip) else mkTower uuid_pnio 1 (hton16 hbe port) (hton32 hbe ip).

(** pf_types.h:434-446 pf_rpc_lookup_rsp_t; the entry, if there is one. *)
Record reply := mkReply { y_handle : ruuid; y_entries : Z; y_max : Z; y_entry : option (ruuid * tower); y_code : Z }.

(** pf_cmrpc_epm.c:155-185 pf_cmrdr_add_epmv4_entry. *)
Definition epm_reply (hbe : bool) (g : ecfg) (now ip : Z) : reply :=
  mkReply (epm_handle now (g_mac g)) 1 1 (Some (zero_uuid, init_tower hbe true 34964 ip)) 0.
(** pf_cmrpc_epm.c:197-246 pf_cmrdr_add_pnio_entry; max_count stays 1. *)
Definition pnio_reply (hbe : bool) (g : ecfg) (now ip : Z) : reply :=
  mkReply (epm_handle now (g_mac g)) 1 1
    (Some (uuid_instance [0; 1; g_dev_hi g; g_dev_lo g; g_ven_hi g; g_ven_lo g], init_tower hbe false 49155 ip)) 0.
(** pf_cmrpc_epm.c:344-348, in pf_cmrpc_lookup_request: not registered. *)
Definition no_reply : reply := mkReply zero_uuid 0 1 None 382312662.

(** pf_cmrpc_epm.c:264-319 pf_cmrdr_inquiry_read_all_reg_ind and 334-383
    pf_cmrpc_lookup_request up to the writer; the flag says that the session is to be ended. *)
Definition answer (hbe : bool) (g : ecfg) (now ip seq : Z) (q : lookup) : reply * bool :=
  if 0 <? l_max q then
    if l_inquiry q =? 0 then
      if seq =? 0 then (epm_reply hbe g now ip, false)
      else if seq =? 1 then (pnio_reply hbe g now ip, false)
      else (no_reply, true)
    else (no_reply, false)
  else (no_reply, false).

(** pf_block_writer.c:161-179 pf_put_rpc_uuid. *)
Definition put_ruuid (be : bool) (u : ruuid) : writer :=
  put_u32 be (v_low u) ;; put_u16 be (v_mid u) ;; put_u16 be (v_hi u) ;; put_byte (v_clock u) ;; put_byte (v_clock_low u) ;; put_mem (v_node u).

(** pf_block_writer.c:4439-4476 pf_put_rpc_floor_1_uuid, 4486-4494 pf_put_rpc_floor_2_uuid. *)
Definition put_floor_uuid (be : bool) (u : ruuid) (major : Z) : writer :=
  put_u16 be 19 ;; put_byte 13 ;; put_ruuid be u ;; put_u16 be major ;; put_u16 be 2 ;; put_u16 be 0.
(** pf_block_writer.c:4504-4533 pf_put_rpc_floor_3_rpc, 4543-4567 pf_put_rpc_floor_4_udp,
    4577-4601 pf_put_rpc_floor_5_ip. *)
Definition put_floor_rpc (be : bool) : writer := put_u16 be 1 ;; put_byte 10 ;; put_u16 be 2 ;; put_u16 be 0.
Definition put_floor_udp (be : bool) (port : Z) : writer := put_u16 be 1 ;; put_byte 8 ;; put_u16 be 2 ;; put_u16 be port.
Definition put_floor_ip (be : bool) (ip : Z) : writer := put_u16 be 1 ;; put_byte 9 ;; put_u16 be 4 ;; put_u32 be ip.

(** The conversions of snprintf that are used: %-Ns, %Nu. *)
Definition fmt_s (n : nat) (s : list Z) : list Z := s ++ repeat 32 (n - length s).
Fixpoint digits (fuel : nat) (v : Z) : list Z :=
  match fuel with
  | O => []
  | S k => if v <? 10 then [48 + v] else digits k (v / 10) ++ [48 + v mod 10]
  end.
Definition fmt_u (n : nat) (v : Z) : list Z := let d := digits 10 v in repeat 32 (n - length d) ++ d.
(** pf_block_writer.c:4625-4656 pf_put_rpc_epm_annotation: 63 characters of the text and the
    terminator.  The text is never shorter, so that no byte of the array is left as it was. *)
Definition annotation_text (g : ecfg) : list Z :=
  fmt_s 25 (g_product g) ++ [32] ++ fmt_s 20 (g_order g) ++ [32] ++ fmt_u 5 (g_hw g) ++ [32] ++ [g_prefix g] ++
  fmt_u 3 (g_sw1 g) ++ fmt_u 3 (g_sw2 g) ++ fmt_u 3 (g_sw3 g).
Definition annotation (g : ecfg) : list Z := firstn 63 (annotation_text g) ++ [0].

(** pf_block_writer.c:4666-4750 pf_put_tower_entry. *)
Definition put_tower (be : bool) (g : ecfg) (t : tower) : writer :=
  put_u32 be 3 ;; put_u32 be 0 ;; put_u32 be 64 ;; put_mem (annotation g) ;; put_u32 be 75 ;; put_u32 be 75 ;; put_u16 be 5 ;;
  put_floor_uuid be (w_if t) (w_if_version t) ;; put_floor_uuid be uuid_ndr 2 ;; put_floor_rpc be ;; put_floor_udp be (w_port t) ;; put_floor_ip be (w_ip t).

(** pf_block_writer.c:4792-4822 pf_put_rpc_epm_entry and 4760-4780 pf_put_rpc_handle. *)
Definition put_entry (be : bool) (g : ecfg) (y : reply) : writer :=
  put_u32 be (y_max y) ;; put_u32 be 0 ;;
  match y_entry y with
  | None => put_u32 be 0
  | Some (u, t) => put_u32 be 1 ;; put_ruuid be u ;; put_tower be g t
  end.
Definition put_handle (be : bool) (u : ruuid) : writer := put_u32 be 0 ;; put_ruuid be u.

(** pf_block_writer.c:4824-4862 pf_put_lookup_response_data.  The padding needs at most one
    byte; if it is not done then, it does not end (AssertFail). *)
Definition put_reply (be : bool) (g : ecfg) (y : reply) : writer := fun w =>
  do w1 <- (put_handle be (y_handle y) ;; put_u32 be (y_entries y) ;; put_entry be g y) w;
  match put_padding_align 1 (w_pos w) 2 w1 with
  | None => AssertFail
  | Some o => do w2 <- o; put_u32 be (y_code y) w2
  end.

(** pf_cmrpc.c:3106-3147 pf_cmrpc_lookup_ind for a session without an error, with 4661-4703 in
    pf_cmrpc_dce_packet: the number of the session is counted up unless it is to be ended.
    [r]: the request behind the header. *)
Definition lookup_ind (hbe : bool) (g : ecfg) (now ip seq : Z) (r : rd) : outcome (writer * option Z) :=
  do (q, _) <- get_lookup r;
  let (y, kill) := answer hbe g now ip seq q in
  Ok (put_reply false g y, if kill then None else Some (u32 (seq + 1))).
