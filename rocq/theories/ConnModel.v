(** Model of the checks of a connect request and of the computation of the
    frame layout: src/device/pf_cmdev.c, pf_cmdev_check_apdu (4136-4262) and the
    functions it calls, and pf_cmdev_fix_frame_id (4633-4701). *)
From Coq Require Import List ZArith Arith Bool.
From Verif Require Import Base CpmModel BlockModel.
Import ListNotations.
Local Open Scope Z_scope.

(** * The request as stored in the AR by the block reader *)

(** pf_types.h:1483-1489 pf_data_descriptor_t. *)
Record ddesc := mkDdesc { dd_dir : Z; dd_len : Z; dd_iops : Z; dd_iocs : Z }.

(** pf_types.h:1491-1528 pf_submodule_properties_t, pf_exp_submodule_t.  The
    list holds the first nbr_data_descriptors elements of data_descriptor. *)
Record xsub := mkXsub { xs_subslot : Z; xs_ident : Z; xs_type : Z; xs_shared : bool; xs_redin : bool; xs_redout : bool;
  xs_discard : bool; xs_descs : list ddesc }.
(** pf_types.h:1530-1562 pf_exp_module_t, pf_exp_api_t. *)
Record xmod := mkXmod { xm_slot : Z; xm_ident : Z; xm_subs : list xsub }.
Record xapi := mkXapi { xa_api : Z; xa_mods : list xmod }.

(** pf_types.h:1423-1477 pf_iocr_param_t; the API entries are those of the block
    reader.  [p_res1], [p_res3]: the reserved bits are not all zero. *)
Record crparam := mkCrparam { p_type : Z; p_lt : Z; p_class : Z; p_res1 : bool; p_res3 : bool; p_sdu : Z; p_fid : Z;
  p_scf : Z; p_rr : Z; p_phase : Z; p_fso : Z; p_hold : Z; p_vlan : Z; p_prio : Z; p_mac : list Z; p_apis : list apientry }.

(** pf_types.h:1668-1690 pf_alarm_cr_request_t. *)
Record alarmcr := mkAlarmcr { l_type : Z; l_udp : bool; l_lt : Z; l_timeout : Z; l_retries : Z; l_maxlen : Z;
  l_hvlan : Z; l_hprio : Z; l_lvlan : Z; l_lprio : Z }.

(** pf_types.h:1375-1400 pf_ar_param_t, as far as it is checked.  The UUIDs are
    lists of bytes; [g_name] is the text before the terminator. *)
Record arp := mkArp { g_type : Z; g_uuid : list Z; g_mac : list Z; g_obj : list Z; g_state : Z; g_extserver : bool;
  g_access : bool; g_companion : Z; g_startup : bool; g_timeout : Z; g_port : Z; g_namelen : Z; g_name : list Z }.

(** The parts of pf_ar_t that come from the request.  [q_alarms]: the alarm CR
    blocks, of which the last one is kept in alarm_cr_request; [q_rpc]:
    initiator_rpc_server_port if there was such a block; [q_ir]: ir_info.valid. *)
Record request := mkRequest { q_ar : arp; q_crs : list crparam; q_exp : list xapi; q_alarms : list alarmcr; q_rpc : option Z;
  q_ir : bool }.

(** * The device and the application *)

(** pf_types.h pf_api_t, pf_slot_t, pf_subslot_t: what is plugged.  APIs, their
    slots and their sub-slots; [v_max] is PNET_MAX_API. *)
Record dev := mkDev { v_apis : list (Z * list (Z * list Z)); v_max : nat }.

Fixpoint assoc {A} (k : Z) (l : list (Z * A)) : option A :=
  match l with [] => None | (k', a) :: r => if k' =? k then Some a else assoc k r end.

(** pf_cmdev.c:127-151 pf_cmdev_get_api, 162-190 pf_cmdev_get_slot, 201-229
    pf_cmdev_get_subslot: is there such an item?  The C code keeps pointers
    across calls of the application; here items are always looked up by number. *)
Definition has_api (v : dev) (a : Z) : bool := match assoc a (v_apis v) with Some _ => true | None => false end.
Definition slots_of (v : dev) (a : Z) : list (Z * list Z) := match assoc a (v_apis v) with Some l => l | None => [] end.
Definition has_slot (v : dev) (a s : Z) : bool := match assoc s (slots_of v a) with Some _ => true | None => false end.
Definition has_sub (v : dev) (a s t : Z) : bool :=
  match assoc s (slots_of v a) with Some l => existsb (Z.eqb t) l | None => false end.

(** pf_cmdev.c:414-456 pf_cmdev_new_api: None if there is no free element. *)
Definition new_api (v : dev) (a : Z) : option dev :=
  if has_api v a then None
  else if (length (v_apis v) <? v_max v)%nat then Some (mkDev (v_apis v ++ [(a, [])]) (v_max v))
  else None.

(** pf_fspm.c:568-640: calls of exp_module_cb and exp_submodule_cb. *)
Inductive appcall :=
| AskModule (api slot ident : Z)
| AskSub (api slot subslot modident subident dir insize outsize : Z).

(** What the application does to the plugged modules when it is called. *)
Definition application := dev -> appcall -> dev.

(** * Errors *)

(** (error_code_1, error_code_2); error_code and error_decode are always
    PNET_ERROR_CODE_CONNECT and PNET_ERROR_DECODE_PNIO. *)
Definition err := (Z * Z)%type.
(** The result of a check: None if it returned 0. *)
Definition chk := option err.
Definition e_ar (n : Z) : chk := Some (1, n).
Definition e_iocr (n : Z) : chk := Some (2, n).
Definition e_exp (n : Z) : chk := Some (3, n).
Definition e_alarm (n : Z) : chk := Some (4, n).
Definition e_rpcblk (n : Z) : chk := Some (7, n).
Definition e_cmrpc (n : Z) : chk := Some (64, n).
Definition passed (c : chk) : bool := match c with None => true | Some _ => false end.
(** An error keeps ret at -1; a later pf_set_error replaces the code. *)
Definition later (a b : chk) : chk := match b with Some _ => b | None => a end.

(** * AR parameters *)

(** pf_cmdev.c:1552-1574 pf_cmdev_check_zero: 0 (true) if all bytes are zero. *)
Definition check_zero (l : list Z) : bool := forallb (Z.eqb 0) l.

(** pf_cmdev.c:1602-1615 pf_cmdev_check_cm_initiator_object_uuid: the first ten
    bytes of the UUID. *)
Definition check_object (l : list Z) : bool :=
  blist_eqb (firstn 10 l) [222; 160; 0; 0; 108; 151; 17; 209; 130; 113].

(** pf_cmdev.c:1627-1644 pf_cmdev_check_visible_string, with isprint of the C
    locale. *)
Definition check_visible (s : list Z) : bool :=
  match s with [] => false | _ => forallb (fun c => (32 <=? c) && (c <=? 126)) s end.

Definition byte0 (l : list Z) : Z := hd 0 l.

(** pf_cmdev.c:1674-1814 pf_cmdev_check_ar_param; PNET_STATION_NAME_MAX_SIZE is
    241. *)
Definition check_ar (g : arp) : chk :=
  if negb (g_type g =? 1) then e_ar 4
  else if check_zero (g_uuid g) then e_ar 5
  else if negb (Z.land (byte0 (g_mac g)) 1 =? 0) then e_ar 7
  else if negb (check_object (g_obj g)) then e_ar 8
  else if negb (g_state g =? 1) then e_ar 9
  else if g_extserver g then e_ar 9
  else if g_access g && negb (g_type g =? 6) then e_ar 9
  else if g_companion g =? 3 then e_ar 9
  else if (g_timeout g <? 1) || (1000 <? g_timeout g) then e_ar 10
  else if (g_namelen g =? 0) || (241 - 1 <? g_namelen g) then e_ar 12
  else if negb (check_visible (g_name g)) then e_ar 13
  else None.

(** * Parameters of the communication relations *)

Definition outside (lo hi x : Z) : bool := (x <? lo) || (hi <? x).

(** pf_cmdev.c:3018-3352: the checks of one IOCR.  [mdi] is min_device_interval
    (pf_fspm.c:561, int16_t).  The product send_clock_factor * reduction_ratio is
    an int, computed only if reduction_ratio is at most 512; the products with
    data_hold_factor are uint32_t. *)
Definition check_cr (mdi : Z) (g : arp) (p : crparam) : chk :=
  let mc := (p_type p =? 3) || (p_type p =? 4) in
  let udp := p_class p =? 4 in
  let rt123 := (p_class p =? 1) || (p_class p =? 2) || (p_class p =? 3) in
  let hold_us := u32 (u32 (u32 (p_hold p * p_rr p) * p_scf p) * 1000) / 32 in
  if g_access g then e_cmrpc 1
  else if (p_type p <? 1) || (4 <? p_type p) then e_iocr 4
  else if negb udp && negb (p_lt p =? 34962) then e_iocr 6
  else if udp && negb (p_lt p =? 2048) then e_iocr 6
  else if negb (g_startup g) && ((p_class p <? 1) || (5 <? p_class p)) then e_iocr 7
  else if g_startup g && ((p_class p <? 2) || (5 <? p_class p)) then e_iocr 7
  else if p_res1 p || p_res3 p then e_iocr 7
  else if (udp && outside 12 1440 (p_sdu p)) || ((p_class p =? 1) && outside 40 1440 (p_sdu p)) then e_iocr 8
  else if mc && (((p_class p =? 1) && outside 63488 64511 (p_fid p)) ||
                 ((p_class p =? 2) && outside 48128 49151 (p_fid p)) ||
                 ((p_class p =? 3) && outside 256 32767 (p_fid p)) ||
                 (udp && outside 63488 64511 (p_fid p))) then e_iocr 9
  else if (p_type p =? 1) && (((p_class p =? 1) && outside 49152 63487 (p_fid p)) ||
                 ((p_class p =? 2) && outside 32768 48127 (p_fid p)) ||
                 ((p_class p =? 3) && outside 256 32767 (p_fid p)) ||
                 (udp && outside 49152 63487 (p_fid p))) then e_iocr 9
  else if negb (existsb (Z.eqb (p_scf p)) [1; 2; 4; 8; 16; 32; 64; 128]) then e_iocr 10
  else if rt123 && (outside 1 512 (p_rr p) || ((256 <=? p_rr p) && (64 <? p_scf p)) ||
                 ((p_rr p =? 512) && (32 <? p_scf p)) || (p_scf p * p_rr p <? mdi)) then e_iocr 11
  else if udp && (outside 1 16384 (p_rr p) || ((8192 <=? p_rr p) && (64 <? p_scf p)) ||
                 ((p_rr p =? 16384) && (32 <? p_scf p))) then e_iocr 11
  else if (p_phase p =? 0) || (p_rr p <? p_phase p) then e_iocr 12
  else if negb (p_fso p =? 4294967295) && ((p_scf p * 31250 <=? p_fso p) || (4000000 <=? p_fso p)) then e_iocr 14
  else if outside 1 7680 (p_hold p) || (udp && (61440000 <? hold_us)) || (rt123 && (1920000 <? hold_us)) then e_iocr 16
  else if negb (p_vlan p =? 0) then e_iocr 17
  else if negb (p_prio p =? 6) then e_iocr 17
  else if mc && (Z.land (byte0 (p_mac p)) 1 =? 0) then e_iocr 18
  else if (length (p_apis p) =? 0)%nat then e_iocr 19
  else if udp && negb (check_zero (g_mac g)) then e_ar 7
  else if udp && (g_port g <=? 1023) then e_ar 11
  else None.

(** pf_cmdev.c:3004-3355 pf_cmdev_check_iocr_param. *)
Fixpoint check_crs (mdi : Z) (g : arp) (l : list crparam) (e : chk) : chk :=
  match l with [] => e | p :: r => check_crs mdi g r (later e (check_cr mdi g p)) end.

(** * Expected submodules *)

Definition is_dir (d : Z) (x : ddesc) : bool := dd_dir x =? d.

(** pf_cmdev.c:3404-3424: what the application is told about the data. *)
Fixpoint exp_data (l : list ddesc) (dir insize outsize : Z) : Z * Z * Z :=
  match l with
  | [] => (dir, insize, outsize)
  | d :: r =>
    let '(dir1, in1) := if is_dir 1 d then (Z.lor dir 1, dd_len d) else (dir, insize) in
    let '(dir2, out2) := if is_dir 2 d then (Z.lor dir1 2, dd_len d) else (dir1, outsize) in
    exp_data r dir2 in1 out2
  end.

(** pf_cmdev.c:3482-3516: how often the sub-slot occurs in the IOCRs. *)
Definition count {A} (f : A -> bool) (l : list A) : nat := length (filter f l).
Definition at_slot (s t : Z) (f : fdesc) : bool := (fd_slot f =? s) && (fd_subslot f =? t).
Definition uses (crs : list crparam) (a s t : Z) : nat :=
  fold_right plus O (map (fun p =>
    fold_right plus O (map (fun e =>
      if ae_api e =? a then (count (at_slot s t) (ae_data e) + count (at_slot s t) (ae_iocs e))%nat else O)
    (p_apis p))) crs).

(** pf_cmdev.c:3561-3588: the data descriptors fit the type. *)
Definition descs_fit (x : xsub) : bool :=
  let ty := xs_type x in
  negb ((((ty =? 0) || (ty =? 1)) && negb match xs_descs x with [d] => is_dir 1 d | _ => false end) ||
        ((ty =? 2) && negb match xs_descs x with [d] => is_dir 2 d | _ => false end) ||
        ((ty =? 3) && negb match xs_descs x with
                           | [d0; d1] => (is_dir 1 d0 || is_dir 1 d1) && (is_dir 2 d0 || is_dir 2 d1)
                           | _ => false end)).

(** pf_cmdev.c:3661-3737: one data descriptor. *)
Definition check_ddesc (ty : Z) (d : ddesc) : chk :=
  if negb (is_dir 1 d) && negb (is_dir 2 d) then e_exp 13
  else if is_dir 1 d && (ty =? 2) then e_exp 13
  else if is_dir 2 d && (negb (ty =? 2) && negb (ty =? 3)) then e_exp 13
  else if (1439 <? dd_len d) || ((ty =? 0) && negb (dd_len d =? 0)) then e_exp 14
  else if negb (dd_iops d =? 1) then e_exp 15
  else if negb (dd_iocs d =? 1) then e_exp 16
  else None.

(** pf_cmdev.c:3528-3739: the checks of one expected submodule. *)
Definition check_sub (v : dev) (a s : Z) (x : xsub) : chk :=
  if 40959 <? xs_subslot x then e_exp 10
  else if negb (has_sub v a s (xs_subslot x)) then e_exp 10
  else if (32768 <=? xs_subslot x) && negb (a =? 0) then e_exp 10
  else if negb (descs_fit x) then e_exp 12
  else if (xs_type x =? 2) && xs_shared x then e_exp 12
  else if xs_redin x && ((xs_type x =? 1) || (xs_type x =? 3)) then e_exp 12
  else if xs_redout x && ((xs_type x =? 2) || (xs_type x =? 3)) then e_exp 12
  else if xs_discard x && negb (xs_type x =? 3) then e_exp 12
  else fold_left (fun e d => later e (check_ddesc (xs_type x) d)) (xs_descs x) None.

(** pf_cmdev.c:3376-3757 pf_cmdev_exp_submodule_configure.  [before] are the
    submodules already handled.  Ownership of the sub-slots (3741-3754) is part
    of CmModel. *)
Fixpoint exp_subs (app : application) (crs : list crparam) (a s mid : Z) (before l : list xsub) (v : dev) (e : chk) : dev * chk :=
  match l with
  | [] => (v, e)
  | x :: r =>
    let v1 := if has_sub v a s (xs_subslot x) then v
              else let '(dir, i, o) := exp_data (xs_descs x) 0 0 0 in
                   app v (AskSub a s (xs_subslot x) mid (xs_ident x) dir i o) in
    let e1 := if passed e && negb (Nat.eqb (count (fun y => xs_subslot y =? xs_subslot x) before) 0) then e_exp 10 else e in
    let e2 := if passed e1 && (uses crs a s (xs_subslot x) =? 0)%nat then e_exp 10 else e1 in
    let e3 := if passed e2 then check_sub v1 a s x else e2 in
    exp_subs app crs a s mid (before ++ [x]) r v1 e3
  end.

(** pf_cmdev.c:3777-3897 pf_cmdev_exp_modules_configure. *)
Fixpoint exp_mods (app : application) (crs : list crparam) (a : Z) (before l : list xmod) (v : dev) (e : chk) : dev * chk :=
  match l with
  | [] => (v, e)
  | m :: r =>
    match e with
    | Some _ => exp_mods app crs a (before ++ [m]) r v e
    | None =>
      let e1 := if Nat.eqb (count (fun y => xm_slot y =? xm_slot m) before) 0 then None else e_exp 6 in
      let v1 := if has_slot v a (xm_slot m) then v else app v (AskModule a (xm_slot m) (xm_ident m)) in
      let '(v2, e2) :=
        match e1 with
        | Some _ => (v1, e1)
        | None =>
          if 32767 <? xm_slot m then (v1, e_exp 6)
          else if negb (has_slot v1 a (xm_slot m)) then (v1, e_exp 6)
          else if xm_ident m =? 0 then (v1, e_exp 7)
          else if (length (xm_subs m) =? 0)%nat then (v1, e_exp 9)
          else exp_subs app crs a (xm_slot m) (xm_ident m) [] (xm_subs m) v1 None
        end in
      exp_mods app crs a (before ++ [m]) r v2 e2
    end
  end.

(** pf_cmdev.c:3916-3964 pf_cmdev_exp_apis_configure: the loop.  An API that is
    not there and cannot be created is passed over. *)
Fixpoint exp_apis (app : application) (crs : list crparam) (l : list xapi) (v : dev) (e : chk) : dev * chk :=
  match l with
  | [] => (v, e)
  | x :: r =>
    match e with
    | Some _ => exp_apis app crs r v e
    | None =>
      let v1 := if has_api v (xa_api x) then Some v else new_api v (xa_api x) in
      match v1 with
      | None => exp_apis app crs r v e
      | Some v1 => let '(v2, e2) := exp_mods app crs (xa_api x) [] (xa_mods x) v1 None in exp_apis app crs r v2 e2
      end
    end
  end.
Definition exp_configure (app : application) (q : request) (v : dev) : dev * chk :=
  if negb (g_access (q_ar q)) && (length (q_exp q) =? 0)%nat then (v, e_exp 4)
  else exp_apis app (q_crs q) (q_exp q) v None.

(** * Frame layout *)

(** pf_cmdev.c:1824-1840 pf_cmdev_get_exp_api, 1842-1865 pf_cmdev_get_exp_mod,
    1867-1893 pf_cmdev_get_exp_sub. *)
Definition get_exp_api (exp : list xapi) (a : Z) : option xapi := find (fun x => xa_api x =? a) exp.
Definition get_exp_mod (exp : list xapi) (a s : Z) : option xmod :=
  match get_exp_api exp a with Some x => find (fun m => xm_slot m =? s) (xa_mods x) | None => None end.
Definition get_exp_sub (exp : list xapi) (a s t : Z) : option xsub :=
  match get_exp_mod exp a s with Some m => find (fun x => xs_subslot x =? t) (xm_subs m) | None => None end.

(** pf_cmdev.c:1917-1967 pf_cmdev_calculate_exp_sub_data_descriptor_direction.
    [input]: data_dir is PF_DIRECTION_INPUT; [iops]: IOPS is wanted, else IOCS. *)
Definition desc_direction (ty : Z) (input iops : bool) : option Z :=
  let inward := (input && iops) || (negb input && negb iops) in
  if (ty =? 0) || (ty =? 1) then (if inward then Some 1 else None)
  else if ty =? 3 then (if inward then Some 1 else Some 2)
  else if ty =? 2 then (if (input && negb iops) || (negb input && iops) then Some 2 else None)
  else None.

(** pf_cmdev.c:1979-2013 pf_cmdev_get_exp_sub_data_descriptor. *)
Definition exp_desc (x : xsub) (input iops : bool) : option ddesc :=
  match desc_direction (xs_type x) input iops with
  | Some d => find (is_dir d) (xs_descs x)
  | None => None
  end.

Definition key := (Z * Z * Z)%type.
Definition keyeqb (a b : key) : bool :=
  let '(x, y, z) := a in let '(x', y', z') := b in (x =? x') && (y =? y') && (z =? z').

(** The layout of one communication relation under construction: data_desc up to
    nbr_data_desc, in_length, out_length. *)
Record layout := mkLayout { y_desc : list (key * iodata); y_in : Z; y_out : Z }.

(** pf_cmdev.c:2111-2139 and 2274-2306: find the descriptor of the sub-slot or
    use a new one; [cap] is the size of the array data_desc. *)
Definition desc0 : iodata := mkIodata 0 0 0 0 0 0.
Fixpoint put_desc (cap : nat) (k : key) (f : iodata -> iodata) (before l : list (key * iodata)) : outcome (list (key * iodata)) :=
  match l with
  | [] => if (cap <=? length before)%nat then Ub else Ok (before ++ [(k, f desc0)])
  | (k', d) :: r => if keyeqb k' k then Ok (before ++ (k', f d) :: r) else put_desc cap k f (before ++ [(k', d)]) r
  end.
Definition desc_of (k : key) (l : list (key * iodata)) : iodata :=
  match find (fun e => keyeqb (fst e) k) l with Some (_, d) => d | None => desc0 end.

(** pf_cmdev.c:2308-2340: data and IOPS. *)
Definition data_part (input : bool) (x : xsub) (d : ddesc) (off : Z) (o : iodata) : iodata :=
  let reduced := (input && xs_redin x) || (negb input && xs_redout x) in
  let '(doff, dlen) := if reduced then (0, 0) else (off, dd_len d) in
  if xs_discard x then mkIodata 0 0 0 0 (k_off o) (k_len o)
  else mkIodata doff dlen (u16 (doff + dlen)) (dd_iops d) (k_off o) (k_len o).

(** pf_cmdev.c:2141-2151: IOCS. *)
Definition iocs_part (x : xsub) (d : ddesc) (off : Z) (o : iodata) : iodata :=
  if xs_discard x then mkIodata (d_off o) (d_len o) (s_off o) (s_len o) 0 0
  else mkIodata (d_off o) (d_len o) (s_off o) (s_len o) off (dd_iocs d).

Definition add_len (input : bool) (n : Z) (y : layout) (l : list (key * iodata)) : layout :=
  if input then mkLayout l (u16 (y_in y + n)) (y_out y) else mkLayout l (y_in y) (u16 (y_out y + n)).

(** One entry of io_data: pf_cmdev.c:2216-2351; errors are only logged. *)
Definition setup_data1 (cap : nat) (exp : list xapi) (input : bool) (a : Z) (f : fdesc) (y : layout) : outcome layout :=
  match get_exp_sub exp a (fd_slot f) (fd_subslot f) with
  | None => Ok y
  | Some x =>
    match exp_desc x input true with
    | None => Ok y
    | Some d =>
      let k := (a, fd_slot f, fd_subslot f) in
      do l <- put_desc cap k (data_part input x d (fd_offset f)) [] (y_desc y);
      let o := desc_of k l in
      Ok (add_len input (d_len o + s_len o + k_len o) y l)
    end
  end.

(** One entry of iocs: pf_cmdev.c:2054-2162; the flag is ret == 0. *)
Definition setup_iocs1 (cap : nat) (exp : list xapi) (input : bool) (a : Z) (f : fdesc) (yb : layout * bool) : outcome (layout * bool) :=
  let '(y, b) := yb in
  match get_exp_sub exp a (fd_slot f) (fd_subslot f) with
  | None => Ok (y, false)
  | Some x =>
    match exp_desc x input false with
    | None => Ok (y, b)
    | Some d =>
      let k := (a, fd_slot f, fd_subslot f) in
      do l <- put_desc cap k (iocs_part x d (fd_offset f)) [] (y_desc y);
      let o := desc_of k l in
      Ok (add_len input (k_len o) y l, b)
    end
  end.

Fixpoint ofold {A B} (f : A -> B -> outcome B) (l : list A) (b : B) : outcome B :=
  match l with [] => Ok b | a :: r => do b' <- f a b; ofold f r b' end.

(** pf_cmdev.c:2186-2360 pf_cmdev_iocr_setup_data_iops (always returns 0). *)
Definition setup_data (cap : nat) (exp : list xapi) (input : bool) (apis : list apientry) (y : layout) : outcome layout :=
  ofold (fun e y => ofold (setup_data1 cap exp input (ae_api e)) (ae_data e) y) apis y.

(** pf_cmdev.c:2026-2173 pf_cmdev_iocr_setup_iocs. *)
Definition setup_iocs (cap : nat) (exp : list xapi) (input : bool) (apis : list apientry) (y : layout) : outcome (layout * bool) :=
  ofold (fun e yb => ofold (setup_iocs1 cap exp input (ae_api e)) (ae_iocs e) yb) apis (y, true).

(** pf_cmdev.c:2372-2421 pf_cmdev_iocr_setup_desc. *)
Definition is_input (p : crparam) : bool := (p_type p =? 1) || (p_type p =? 3).
Definition setup_desc (cap : nat) (exp : list xapi) (p : crparam) : outcome (layout * bool) :=
  do y <- setup_data cap exp (is_input p) (p_apis p) (mkLayout [] 0 0);
  setup_iocs cap exp (is_input p) (p_apis p) y.

(** pf_cmdev.c:4178-4189: all relations, until one fails (None: ret is -1; no
    error code is set). *)
Fixpoint setup_all (cap : nat) (exp : list xapi) (crs : list crparam) : outcome (option (list layout)) :=
  match crs with
  | [] => Ok (Some [])
  | p :: r =>
    do yb <- setup_desc cap exp p;
    let '(y, b) := yb in
    if b then do ys <- setup_all cap exp r; Ok (match ys with Some ys => Some (y :: ys) | None => None end)
    else Ok None
  end.

(** * Checks of the layout *)

(** pf_cmdev.c:2445-2472 pf_cmdev_check_no_straddle; true means 0. *)
Definition no_straddle (s1 l1 s2 l2 : Z) : bool :=
  if (0 <? l1) && (0 <? l2) then
    if s1 <=? s2 then negb (s2 <? s1 + l1) else negb (s1 <? s2 + l2)
  else true.

(** One area against the three areas of another descriptor. *)
Definition clear_of (s l : Z) (o : iodata) : bool :=
  if 0 <? l then no_straddle s l (d_off o) (d_len o) && no_straddle s l (k_off o) (k_len o) && no_straddle s l (s_off o) (s_len o)
  else true.

(** pf_cmdev.c:2482-2626 pf_cmdev_check_iocr_overlap. *)
Definition check_overlap (before : list (key * iodata)) (o : iodata) : chk :=
  if negb (forallb (fun e => clear_of (d_off o) (d_len o) (snd e) && clear_of (s_off o) (s_len o) (snd e)) before) then e_iocr 24
  else if negb (forallb (fun e => clear_of (k_off o) (k_len o) (snd e)) before) then e_iocr 28
  else None.

(** pf_cmdev.c:2937-2982: all descriptors of a relation. *)
Fixpoint check_descs (sdu : Z) (before l : list (key * iodata)) (e : chk) : chk :=
  match l with
  | [] => e
  | (k, o) :: r =>
    let e1 :=
      match e with
      | Some _ => e
      | None =>
        if sdu <? d_off o + d_len o then e_iocr 24
        else if sdu <? s_off o + s_len o then e_iocr 24
        else if sdu <? k_off o + k_len o then e_iocr 28
        else check_overlap before o
      end in
    check_descs sdu (before ++ [(k, o)]) r e1
  end.

(** The last module and submodule with this number (loops 2724-2732 etc. do not
    stop at the first). *)
Definition last_mod (x : xapi) (s : Z) : option xmod := find (fun m => xm_slot m =? s) (rev (xa_mods x)).
Definition last_sub (m : xmod) (t : Z) : option xsub := find (fun x => xs_subslot x =? t) (rev (xm_subs m)).

(** Slot and sub-slot occur once: pf_cmdev.c:2691-2719 and 2803-2832. *)
Definition check_unique (n : Z) (l : list fdesc) (e : chk) : chk :=
  fold_left (fun e f => if (count (at_slot (fd_slot f) (fd_subslot f)) l =? 1)%nat then e else e_iocr n) l e.

(** pf_cmdev.c:2721-2800: one entry of io_data. *)
Definition check_data1 (x : xapi) (ty : Z) (e : chk) (f : fdesc) : chk :=
  match last_mod x (fd_slot f) with
  | None => e_iocr 22
  | Some m =>
    match last_sub m (fd_subslot f) with
    | None => e_iocr 23
    | Some u =>
      match e with
      | Some _ => e
      | None =>
        if ((xs_type u =? 0) || (xs_type u =? 1)) && ((ty =? 2) || (ty =? 4)) then e_iocr 23
        else if (xs_type u =? 2) && ((ty =? 1) || (ty =? 3)) then e_iocr 23
        else None
      end
    end
  end.

(** pf_cmdev.c:2834-2932: one entry of iocs. *)
Definition check_iocs1 (x : xapi) (ty : Z) (e : chk) (f : fdesc) : chk :=
  match last_mod x (fd_slot f) with
  | None => e_iocr 27
  | Some m =>
    match last_sub m (fd_subslot f) with
    | None => e_iocr 27
    | Some u =>
      match e with
      | Some _ => e
      | None =>
        if ((xs_type u =? 0) || (xs_type u =? 1)) && (ty =? 1) then e_iocr 27
        else if (xs_type u =? 2) && (ty =? 2) then e_iocr 27
        else if (xs_type u =? 3) && negb (length (xs_descs u) =? 2)%nat then e_iocr 28
        else None
      end
    end
  end.

(** pf_cmdev.c:2660-2935: one API entry of a relation. *)
Definition check_entry (exp : list xapi) (ty : Z) (e : chk) (a : apientry) : chk :=
  match get_exp_api exp (ae_api a) with
  | None => e_iocr 20
  | Some x =>
    let e1 := if (length (ae_data a) =? 0)%nat && (length (ae_iocs a) =? 0)%nat then e_iocr 21 else e in
    match e1 with
    | Some _ => e1
    | None =>
      let e2 := check_unique 23 (ae_data a) None in
      let e3 := fold_left (check_data1 x ty) (ae_data a) e2 in
      let e4 := if passed e3 then check_unique 27 (ae_iocs a) e3 else e3 in
      if passed e4 then fold_left (check_iocs1 x ty) (ae_iocs a) e4 else e4
    end
  end.

(** pf_cmdev.c:2636-2993 pf_cmdev_check_iocr_apis (without the flag "valid" of
    the parameters). *)
Fixpoint check_apis (exp : list xapi) (crs : list (crparam * layout)) (e : chk) : chk :=
  match crs with
  | [] => e
  | (p, y) :: r =>
    let e1 := fold_left (check_entry exp (p_type p)) (p_apis p) e in
    let e2 := check_descs (p_sdu p) [] (y_desc y) e1 in
    check_apis exp r e2
  end.

(** * The other blocks *)

(** pf_cmdev.c:3974-4103 pf_cmdev_check_alarm_cr. *)
Definition check_alarm (g : arp) (l : alarmcr) : chk :=
  if g_access g then e_cmrpc 1
  else if negb (l_type l =? 1) then e_alarm 4
  else if (negb (l_udp l) && negb (l_lt l =? 34962)) || (l_udp l && negb (l_lt l =? 2048)) then e_alarm 5
  else if outside 1 100 (l_timeout l) then e_alarm 7
  else if outside 3 15 (l_retries l) then e_alarm 8
  else if outside 200 1432 (l_maxlen l) then e_alarm 10
  else if negb (l_hvlan l =? 0) then e_alarm 11
  else if negb (l_hprio l =? 6) then e_alarm 11
  else if negb (l_lvlan l =? 0) then e_alarm 12
  else if negb (l_lprio l =? 5) then e_alarm 12
  else None.

(** pf_cmdev.c:4116-4137 pf_cmdev_check_ar_rpc. *)
Definition check_rpc (port : Z) : chk := if port <? 1024 then e_rpcblk 4 else None.

(** pf_cmdev.c:4199-4248: numbers of blocks.  The counters input_cr_cnt,
    output_cr_cnt and rtc3_present are those of pf_cmrpc.c:1350-1371. *)
Definition check_counts (q : request) : chk :=
  let g := q_ar q in
  if negb (g_access g) && (Nat.eqb (count (fun p => p_type p =? 1) (q_crs q)) 0 ||
                           Nat.eqb (count (fun p => p_type p =? 2) (q_crs q)) 0) then e_cmrpc 2
  else if negb (g_access g) && negb (length (q_alarms q) =? 1)%nat then e_cmrpc 3
  else if negb (q_ir q) && existsb (fun p => p_class p =? 3) (q_crs q) then e_cmrpc 3
  else None.

(** * The whole check *)

Inductive verdict :=
| Accepted (ys : list layout)
| Refused (status : option err).   (* None: no error code was stored *)

(** pf_cmdev.c:4154-4262 pf_cmdev_check_apdu, with at least one AR block (other
    requests do not get this far).  Result: the device after the calls of the
    application, and the verdict. *)
Definition check_apdu (mdi : Z) (cap : nat) (app : application) (q : request) (v : dev) : outcome (dev * verdict) :=
  match check_ar (q_ar q) with
  | Some e => Ok (v, Refused (Some e))
  | None =>
    match check_crs mdi (q_ar q) (q_crs q) None with
    | Some e => Ok (v, Refused (Some e))
    | None =>
      match exp_configure app q v with
      | (v1, Some e) => Ok (v1, Refused (Some e))
      | (v1, None) =>
        do ys <- setup_all cap (q_exp q) (q_crs q);
        match ys with
        | None => Ok (v1, Refused None)
        | Some ys =>
          match check_apis (q_exp q) (combine (q_crs q) ys) None with
          | Some e => Ok (v1, Refused (Some e))
          | None =>
            match check_counts q with
            | Some e => Ok (v1, Refused (Some e))
            | None =>
              match match rev (q_alarms q) with l :: _ => check_alarm (q_ar q) l | [] => None end with
              | Some e => Ok (v1, Refused (Some e))
              | None =>
                match match q_rpc q with Some p => check_rpc p | None => None end with
                | Some e => Ok (v1, Refused (Some e))
                | None => Ok (v1, Accepted ys)
                end
              end
            end
          end
        end
      end
    end
  end.

(** * Frame ids *)

(** pf_cmdev.c:4601-4623 pf_cmdev_verify_free_frame_id: [used] are the frame ids
    of all relations of all connections in use. *)
Definition free_id (used : list Z) (f : Z) : bool := negb (existsb (Z.eqb f) used).

(** pf_cmdev.c:4648-4671. *)
Definition id_range (class : Z) : Z * Z :=
  if class =? 1 then (49152, 63487)
  else if class =? 2 then (32768, 48127)
  else if class =? 3 then (256, 32767)
  else if class =? 4 then (49152, 63487)
  else (65535, 65535).

(** pf_cmdev.c:4673-4678: the loop.  None: not finished within [fuel] steps. *)
Fixpoint search_id (fuel : nat) (used : list Z) (stop f : Z) : option Z :=
  if (f <=? stop) && negb (free_id used f) then
    match fuel with O => None | S n => search_id n used stop (u16 (f + 1)) end
  else Some f.

(** pf_cmdev.c:4633-4701 pf_cmdev_fix_frame_id.  [others]: the frame ids of the
    other connections; [before], [l]: the relations of this one.  None: the loop
    does not end. *)
Fixpoint fix_ids (others : list Z) (before l : list crparam) : option (list crparam) :=
  match l with
  | [] => Some before
  | p :: r =>
    if (p_type p =? 2) && (p_fid p =? 65535) then
      let '(start, stop) := id_range (p_class p) in
      match search_id (Z.to_nat 65536) (others ++ map p_fid before ++ map p_fid (p :: r)) stop start with
      | None => None
      | Some f =>
        let p' := if f <=? stop
                  then mkCrparam (p_type p) (p_lt p) (p_class p) (p_res1 p) (p_res3 p) (p_sdu p) f (p_scf p) (p_rr p)
                         (p_phase p) (p_fso p) (p_hold p) (p_vlan p) (p_prio p) (p_mac p) (p_apis p)
                  else p in
        fix_ids others (before ++ [p']) r
      end
    else fix_ids others (before ++ [p]) r
  end.
