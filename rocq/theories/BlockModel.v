(** Model of the block reader and writer: src/device/pf_block_reader.c and
    src/device/pf_block_writer.c (primitives and the blocks used by other models). *)
From Coq Require Import List ZArith Arith Bool.
From Verif Require Import Base CpmModel PpmModel.
Import ListNotations.
Local Open Scope Z_scope.

(** * Reader *)

(** pf_types.h:2008-2016 pf_get_result_t. *)
Inductive pres := POk | PNull | PEnd | POutOfApi | POutOfExpSub | PError.

(** pf_types.h:2018-2024 pf_get_info_t together with the current position.
    [r_buf] is the memory behind p_buf (None: NULL pointer). *)
Record rd := mkRd { r_buf : option (list Z); r_len : Z; r_be : bool; r_res : pres; r_pos : Z }.

Definition set_pos (r : rd) (p : Z) : rd := mkRd (r_buf r) (r_len r) (r_be r) (r_res r) p.
Definition set_res (r : rd) (e : pres) : rd := mkRd (r_buf r) (r_len r) (r_be r) e (r_pos r).
Definition set_be (r : rd) (b : bool) : rd := mkRd (r_buf r) (r_len r) b (r_res r) (r_pos r).

(** Programs that read. *)
Definition reader (A : Type) := rd -> outcome (A * rd).
Definition rret {A} (a : A) : reader A := fun r => Ok (a, r).
Definition rbind {A B} (m : reader A) (k : A -> reader B) : reader B :=
  fun r => do x <- m r; let '(a, r') := x in k a r'.
Notation "'rdo' x <- m ; k" := (rbind m (fun x => k)) (at level 200, x pattern, m at level 100, k at level 200).

Definition is_ok (e : pres) : bool := match e with POk => true | _ => false end.

(** pf_block_reader.c:69-97 pf_get_byte. *)
Definition get_byte : reader Z := fun r =>
  if negb (is_ok (r_res r)) then Ok (0, r)
  else if r_len r <=? r_pos r then Ok (0, set_res r PEnd)
  else match r_buf r with
       | None => Ok (0, set_res r PNull)
       | Some b => do v <- byte_at b (r_pos r); Ok (v, set_pos r (u16 (r_pos r + 1)))
       end.

(** pf_block_reader.c:38-67 pf_get_mem: None means that the destination was not
    written.  The destination must have room for [n] bytes: see get_mem_into. *)
Definition get_mem (n : Z) : reader (option (list Z)) := fun r =>
  if negb (is_ok (r_res r)) then Ok (None, r)
  else if r_len r <? r_pos r + n then Ok (None, set_res r PEnd)
  else match r_buf r with
       | None => Ok (None, set_res r PNull)
       | Some b => do v <- slice b (r_pos r) n; Ok (Some v, set_pos r (u16 (r_pos r + n)))
       end.

(** pf_get_mem to an array of [cap] bytes with content [old]. *)
Definition get_mem_into (cap : Z) (old : list Z) (n : Z) : reader (list Z) := fun r =>
  do x <- get_mem n r;
  match x with
  | (None, r') => Ok (old, r')
  | (Some v, r') => if cap <? n then Ub else Ok (v ++ skipn (Z.to_nat n) old, r')
  end.

(** pf_block_reader.c:99-119 pf_get_uint16.  The two calls of pf_get_byte in one
    C expression are taken to be evaluated from left to right (the C standard
    leaves the order open). *)
Definition get_u16 : reader Z := fun r =>
  if negb (is_ok (r_res r)) then Ok (0, r)
  else (rdo a <- get_byte; rdo b <- get_byte;
        rret (u16 (if r_be r then Z.shiftl a 8 + b else a + Z.shiftl b 8))) r.

(** pf_block_reader.c:121-141 pf_get_uint32 (same remark). *)
Definition get_u32 : reader Z := fun r =>
  (rdo a <- get_byte; rdo b <- get_byte; rdo c <- get_byte; rdo d <- get_byte;
   rret (u32 (if r_be r then Z.shiftl a 24 + Z.shiftl b 16 + Z.shiftl c 8 + d
              else a + Z.shiftl b 8 + Z.shiftl c 16 + Z.shiftl d 24))) r.

(** pf_block_reader.c:201-222 pf_get_bits. *)
Definition get_bits (bits pos len : Z) : Z :=
  if len =? 0 then 0
  else if 32 <? pos + len then 0
  else if (pos =? 0) && (len =? 32) then bits
  else Z.land (Z.shiftr bits pos) (Z.shiftl 1 len - 1).

(** pf_types.h pf_uuid_t; pf_block_reader.c:150-159 pf_get_uuid.  [old4] is the
    previous content of data4. *)
Record uuid := mkUuid { u_d1 : Z; u_d2 : Z; u_d3 : Z; u_d4 : list Z }.
Definition get_uuid (old4 : list Z) : reader uuid :=
  rdo d1 <- get_u32; rdo d2 <- get_u16; rdo d3 <- get_u16; rdo d4 <- get_mem_into 8 old4 8;
  rret (mkUuid d1 d2 d3 d4).

(** pf_types.h pf_block_header_t; pf_block_reader.c:337-346 pf_get_block_header. *)
Record bhead := mkBhead { b_type : Z; b_length : Z; b_vhigh : Z; b_vlow : Z }.
Definition get_block_header : reader bhead :=
  rdo t <- get_u16; rdo l <- get_u16; rdo vh <- get_byte; rdo vl <- get_byte; rret (mkBhead t l vh vl).

(** pf_types.h:809-817 pf_control_block_t (without block_type);
    pf_block_reader.c:710-725 pf_get_control. *)
Record control := mkControl { k_uuid : uuid; k_session : Z; k_command : Z; k_props : Z; k_alarmseq : Z }.
Definition get_control (old4 : list Z) : reader control :=
  rdo _ <- get_u16; rdo u <- get_uuid old4; rdo s <- get_u16; rdo q <- get_u16; rdo c <- get_u16; rdo p <- get_u16;
  rret (mkControl u s c p q).

(** pf_types.h:912-937 pf_alarm_fixed_t; pf_block_reader.c:872-893
    pf_get_alarm_fixed. *)
Record afixed := mkAfixed { a_dst : Z; a_src : Z; a_type : Z; a_version : Z; a_window : Z; a_tack : Z; a_send : Z; a_ack : Z }.
Definition get_alarm_fixed : reader afixed :=
  rdo d <- get_u16; rdo s <- get_u16; rdo x <- get_byte; rdo y <- get_byte; rdo n <- get_u16; rdo a <- get_u16;
  rret (mkAfixed d s (get_bits x 0 4) (get_bits x 4 4) (get_bits y 0 4) (get_bits y 4 1) n a).

(** pf_types.h pf_alarm_data_t (the fields read); pf_block_reader.c:895-919
    pf_get_alarm_data and 921-943 pf_get_alarm_ack. *)
Record adata := mkAdata { ad_type : Z; ad_api : Z; ad_slot : Z; ad_subslot : Z; ad_module : Z; ad_submodule : Z;
  ad_seq : Z; ad_channel : Z; ad_manuf : Z; ad_submod : Z; ad_ar : Z }.
Definition get_alarm_data : reader adata :=
  rdo t <- get_u16; rdo api <- get_u32; rdo s <- get_u16; rdo ss <- get_u16; rdo m <- get_u32; rdo sm <- get_u32;
  rdo x <- get_u16;
  rret (mkAdata t api s ss m sm (get_bits x 0 11) (get_bits x 11 1) (get_bits x 12 1) (get_bits x 13 1) (get_bits x 15 1)).
Definition get_alarm_ack (oldmod oldsub : Z) : reader adata :=
  rdo t <- get_u16; rdo api <- get_u32; rdo s <- get_u16; rdo ss <- get_u16; rdo x <- get_u16;
  rret (mkAdata t api s ss oldmod oldsub (get_bits x 0 11) (get_bits x 11 1) (get_bits x 12 1) (get_bits x 13 1) (get_bits x 15 1)).

(** pf_block_reader.c:945-954 pf_get_pnio_status. *)
Record pnio := mkPnio { p_code : Z; p_decode : Z; p_code1 : Z; p_code2 : Z }.
Definition get_pnio_status : reader pnio :=
  rdo a <- get_byte; rdo b <- get_byte; rdo c <- get_byte; rdo d <- get_byte; rret (mkPnio a b c d).

(** pf_types.h:278-319 pf_rpc_header_t; pf_block_reader.c:739-792
    pf_get_dce_rpc_header. *)
Record rpch := mkRpch {
  h_version : Z; h_ptype : Z;
  h_last : Z; h_frag : Z; h_nofack : Z; h_maybe : Z; h_idem : Z; h_bcast : Z; h_cancel : Z;
  h_be : bool; h_float : Z; h_reserved : Z; h_serial_high : Z;
  h_object : uuid; h_interface : uuid; h_activity : uuid;
  h_boot : Z; h_ifver : Z; h_seq : Z; h_opnum : Z; h_ifhint : Z; h_acthint : Z; h_bodylen : Z; h_fragnmb : Z;
  h_auth : Z; h_serial_low : Z }.
Definition set_endian (b : bool) : reader unit := fun r => Ok (tt, set_be r b).
Definition get_dce_rpc_header (o1 o2 o3 : list Z) : reader rpch :=
  rdo v <- get_byte; rdo pt <- get_byte; rdo fl <- get_byte; rdo fl2 <- get_byte; rdo dr <- get_byte;
  let be := get_bits dr 4 4 =? 0 in
  rdo _ <- set_endian be;
  rdo _ <- get_byte; rdo rs <- get_byte; rdo sh <- get_byte;
  rdo u1 <- get_uuid o1; rdo u2 <- get_uuid o2; rdo u3 <- get_uuid o3;
  rdo boot <- get_u32; rdo iv <- get_u32; rdo sq <- get_u32;
  rdo op <- get_u16; rdo ih <- get_u16; rdo ah <- get_u16; rdo bl <- get_u16; rdo fn <- get_u16;
  rdo au <- get_byte; rdo sl <- get_byte;
  rret (mkRpch v (Z.land pt 31) (get_bits fl 1 1) (get_bits fl 2 1) (get_bits fl 3 1) (get_bits fl 4 1)
    (get_bits fl 5 1) (get_bits fl 6 1) (get_bits fl2 1 1) be 0 rs sh u1 u2 u3 boot iv sq op ih ah bl fn au sl).

(** pf_block_reader.c:727-737 pf_get_ndr_data. *)
Record ndr := mkNdr { n_argsmax : Z; n_argslen : Z; n_max : Z; n_offset : Z; n_actual : Z }.
Definition get_ndr : reader ndr :=
  rdo a <- get_u32; rdo b <- get_u32; rdo c <- get_u32; rdo d <- get_u32; rdo e <- get_u32; rret (mkNdr a b c d e).

(** pf_block_reader.c:794-815 pf_get_read_request and 834-854 pf_get_write_request
    (without padding fields, which are read and kept but not used). *)
Record rwreq := mkRwreq { q_seq : Z; q_uuid : uuid; q_api : Z; q_slot : Z; q_subslot : Z; q_index : Z; q_len : Z }.
Fixpoint skip_bytes (n : nat) : reader unit :=
  match n with O => rret tt | S k => rdo _ <- get_byte; skip_bytes k end.
Definition get_write_request (old4 : list Z) : reader rwreq :=
  rdo s <- get_u16; rdo u <- get_uuid old4; rdo a <- get_u32; rdo sl <- get_u16; rdo ss <- get_u16; rdo _ <- skip_bytes 2;
  rdo ix <- get_u16; rdo l <- get_u32; rdo _ <- skip_bytes 24;
  rret (mkRwreq s u a sl ss ix l).
Definition get_read_request (old4 oldt : list Z) : reader (rwreq * uuid) :=
  rdo s <- get_u16; rdo u <- get_uuid old4; rdo a <- get_u32; rdo sl <- get_u16; rdo ss <- get_u16; rdo _ <- skip_bytes 2;
  rdo ix <- get_u16; rdo l <- get_u32; rdo t <- get_uuid oldt; rdo _ <- skip_bytes 8;
  rret (mkRwreq s u a sl ss ix l, t).

(** pf_block_reader.c:1040-1061 pf_get_port_data_adjust_peer_to_peer_boundary and
    1063-1075 pf_get_interface_adjust. *)
Record boundary := mkBoundary { bd_lldp : Z; bd_ptcp : Z; bd_path : Z; bd_props : Z }.
Definition get_boundary : reader boundary :=
  rdo _ <- get_mem_into 4 [0; 0; 0; 0] 2; rdo t <- get_u32; rdo p <- get_u16;
  rret (mkBoundary (get_bits t 0 1) (get_bits t 1 1) (get_bits t 2 1) p).
Definition get_interface_adjust : reader Z :=
  rdo _ <- get_mem_into 2 [0; 0] 2; rdo t <- get_u32; rret (get_bits t 0 1).

(** ** Tables filled from requests *)

(** [n] repetitions of a reader that stores into an array of [cap] elements. *)
Fixpoint fill {A} (cap : nat) (ix n : nat) (m : reader A) : reader (list A) :=
  match n with
  | O => rret []
  | S k => fun r => if (cap <=? ix)%nat then Ub
                    else (rdo a <- m; rdo l <- fill cap (S ix) k m; rret (a :: l)) r
  end.

(** pf_block_reader.c:231-239 pf_get_frame_descriptor. *)
Record fdesc := mkFdesc { fd_slot : Z; fd_subslot : Z; fd_offset : Z }.
Definition get_frame_descriptor : reader fdesc :=
  rdo a <- get_u16; rdo b <- get_u16; rdo c <- get_u16; rret (mkFdesc a b c).

(** pf_block_reader.c:249-278 pf_get_iocr_api_entry; [cap] is the number of
    elements of io_data and iocs (PNET_MAX_SLOTS * PNET_MAX_SUBSLOTS).  The first
    component is the return value (true: 0). *)
Record apientry := mkApi { ae_api : Z; ae_data : list fdesc; ae_iocs : list fdesc }.
Definition get_iocr_api_entry (cap : nat) : reader (bool * apientry) :=
  rdo api <- get_u32;
  rdo n <- get_u16;
  if Z.of_nat cap <? n then rret (false, mkApi api [] []) else
  rdo d <- fill cap 0 (Z.to_nat n) get_frame_descriptor;
  rdo k <- get_u16;
  if Z.of_nat cap <? k then rret (false, mkApi api d []) else
  rdo c <- fill cap 0 (Z.to_nat k) get_frame_descriptor;
  rret (true, mkApi api d c).

(** The loop over the APIs of pf_get_iocr_param (stops at the first error). *)
Fixpoint get_iocr_apis (capapi cap : nat) (ix n : nat) : reader (bool * list apientry) :=
  match n with
  | O => rret (true, [])
  | S k => fun r => if (capapi <=? ix)%nat then Ub
                    else (rdo x <- get_iocr_api_entry cap;
                          if fst x then rdo y <- get_iocr_apis capapi cap (S ix) k; rret (fst y, snd x :: snd y)
                          else rret (false, [snd x])) r
  end.

(** pf_types.h pf_iocr_param_t; pf_block_reader.c:396-459 pf_get_iocr_param.
    [capapi] is PNET_MAX_API. *)
Record iocrp := mkIocrp { i_type : Z; i_ref : Z; i_lt : Z; i_class : Z; i_csdu : Z; i_frameid : Z; i_scf : Z; i_rr : Z;
  i_phase : Z; i_seq : Z; i_fso : Z; i_watchdog : Z; i_hold : Z; i_vlan : Z; i_prio : Z; i_mac : list Z; i_apis : list apientry }.
Definition get_iocr_param (capapi cap : nat) (oldmac : list Z) : reader (bool * iocrp) :=
  rdo ty <- get_u16; rdo ref <- get_u16; rdo lt <- get_u16; rdo props <- get_u32;
  rdo csdu <- get_u16; rdo fid <- get_u16; rdo scf <- get_u16; rdo rr <- get_u16; rdo ph <- get_u16; rdo sq <- get_u16;
  rdo fso <- get_u32; rdo wd <- get_u16; rdo hold <- get_u16; rdo tag <- get_u16;
  rdo mac <- get_mem_into 6 oldmac 6;
  rdo n <- get_u16;
  let mk l := mkIocrp ty ref lt (get_bits props 0 4) csdu fid scf rr ph sq fso wd hold (get_bits tag 0 11) (get_bits tag 13 3) mac l in
  if Z.of_nat capapi <? n then rret (false, mk []) else
  rdo x <- get_iocr_apis capapi cap 0 (Z.to_nat n);
  rret (fst x, mk (snd x)).

(** pf_block_reader.c:380-394 (end of pf_get_ar_param): the station name of the
    controller; the array has [cap] bytes, PNET_STATION_NAME_MAX_SIZE = 241.  The
    result is the terminated string. *)
Definition get_station_name (cap : Z) (old : list Z) : reader (list Z) :=
  rdo n <- get_u16;
  let k := if cap - 1 <? n then cap - 1 else n in
  rdo s <- get_mem_into cap old k;
  fun r => if (Z.to_nat k <? length s)%nat then Ok (firstn (Z.to_nat k) s ++ [0] ++ skipn (Z.to_nat k + 1) s, r) else Ub.

(** pf_types.h pf_ar_param_t; pf_block_reader.c:348-394 pf_get_ar_param (the
    property bits are kept as one word). *)
Record arparam := mkArparam { ar_type : Z; ar_uuid : uuid; ar_session : Z; ar_mac : list Z; ar_obj : uuid; ar_props : Z;
  ar_timeout : Z; ar_port : Z; ar_name : list Z }.
Definition get_ar_param (o1 o2 oldmac oldname : list Z) : reader arparam :=
  rdo t <- get_u16; rdo u <- get_uuid o1; rdo s <- get_u16; rdo m <- get_mem_into 6 oldmac 6; rdo o <- get_uuid o2;
  rdo p <- get_u32; rdo f <- get_u16; rdo up <- get_u16; rdo n <- get_station_name 241 oldname;
  rret (mkArparam t u s m o p f up n).

(** pf_block_reader.c:976-1001 get_check_peer: arrays of 256 and 241 bytes
    (pf_types.h:2764 pf_check_peer_t). *)
Definition put_nul (s : list Z) (k : Z) : reader (list Z) := fun r =>
  if (Z.to_nat k <? length s)%nat then Ok (firstn (Z.to_nat k) s ++ [0] ++ skipn (Z.to_nat k + 1) s, r) else Ub.
Definition get_check_peer (oldport oldstation : list Z) : reader (list Z * list Z) :=
  rdo n <- get_byte;
  rdo p <- get_mem_into 256 oldport n;
  rdo p' <- put_nul p n;
  rdo k <- get_byte;
  rdo s <- get_mem_into 241 oldstation k;
  rdo s' <- put_nul s k;
  rret (p', s').

(** pf_block_reader.c:1003-1025 pf_get_port_data_check_check_peers; the array of
    peers has [cap] elements. *)
Definition get_check_peers (cap : nat) (maxp : Z) (oldport oldstation : list Z) : reader (list (list Z * list Z)) :=
  rdo n <- get_byte;
  fill cap 0 (Z.to_nat (if maxp <? n then maxp else n)) (get_check_peer oldport oldstation).

(** pf_types.h:1505-1558; pf_block_reader.c:287-333 pf_get_exp_submodule. *)
Record datadesc := mkDd { dd_dir : Z; dd_len : Z; dd_iocs : Z; dd_iops : Z }.
Record expsub := mkExpsub { es_subslot : Z; es_ident : Z; es_type : Z; es_descs : list datadesc }.
Definition get_data_desc : reader datadesc :=
  rdo a <- get_u16; rdo b <- get_u16; rdo c <- get_byte; rdo d <- get_byte; rret (mkDd a b c d).
Definition get_exp_submodule : reader expsub :=
  rdo ss <- get_u16; rdo id <- get_u32; rdo p <- get_u16;
  let ty := get_bits p 0 2 in
  rdo d0 <- get_data_desc;
  if ty =? 3 then rdo d1 <- get_data_desc; rret (mkExpsub ss id ty [d0; d1])
  else rret (mkExpsub ss id ty [d0]).

Record expmod := mkExpmod { em_slot : Z; em_ident : Z; em_props : Z; em_subs : list expsub }.
Record expapi := mkExpapi { ea_valid : bool; ea_api : Z; ea_mods : list expmod }.

(** Capacities PNET_MAX_API, PNET_MAX_SLOTS, PNET_MAX_SUBSLOTS. *)
Record caps := mkCaps { c_api : nat; c_slots : nat; c_subslots : nat }.

(** pf_block_reader.c:484-492: the last valid entry with this API number. *)
Fixpoint find_api (l : list expapi) (ix : nat) (a : Z) (found : option nat) : option nat :=
  match l with
  | [] => found
  | e :: r => find_api r (S ix) a (if ea_valid e && (ea_api e =? a) then Some ix else found)
  end.

Definition set_nth {A} (l : list A) (i : nat) (v : A) : list A := firstn i l ++ v :: skipn (S i) l.

(** pf_block_reader.c:461-557 pf_get_exp_api_module: the loop, with the variable
    "api" as the index [cur].  The list of APIs is exp_ident.api up to nbr_apis. *)
Fixpoint exp_loop (c : caps) (n : nat) (cur : option nat) (apis : list expapi) : reader (list expapi) :=
  match n with
  | O => rret apis
  | S k =>
    rdo a <- get_u32;
    let cur1 := find_api apis 0 a cur in
    let alloc := match cur1 with None => (length apis <? c_api c)%nat | Some _ => false end in
    let cur2 := if alloc then Some (length apis) else cur1 in
    let apis1 := if alloc then apis ++ [mkExpapi false a []] else apis in
    match cur2 with
    | None => fun r => exp_loop c k cur2 apis1 (set_res r POutOfApi)
    | Some ix =>
      rdo slot <- get_u16;
      match nth_error apis1 ix with
      | None => fun _ => Ub
      | Some e =>
        if (length (ea_mods e) <? c_slots c)%nat then
          rdo id <- get_u32; rdo p <- get_u16; rdo ns <- get_u16;
          rdo subs <- fill (c_subslots c) 0 (Z.to_nat ns) get_exp_submodule;
          exp_loop c k cur2 (set_nth apis1 ix (mkExpapi true (ea_api e) (ea_mods e ++ [mkExpmod slot id p subs])))
        else fun r => exp_loop c k cur2 apis1 (set_res r POutOfExpSub)
      end
    end
  end.

Definition get_exp_api_module (c : caps) (apis : list expapi) : reader (list expapi) :=
  rdo n <- get_u16; exp_loop c (Z.to_nat n) None apis.

(** * Writer *)

(** Destination buffer (None: NULL pointer), size given by the caller, position. *)
Record wr := mkWr { w_buf : option (list Z); w_len : Z; w_pos : Z }.
Definition writer := wr -> outcome wr.
Definition wseq (a b : writer) : writer := fun w => do w' <- a w; b w'.
Notation "a ;; b" := (wseq a b) (at level 61, right associativity).
Definition wskip : writer := fun w => Ok w.

(** pf_block_writer.c:224-242 pf_put_byte. *)
Definition put_byte (v : Z) : writer := fun w =>
  if w_len w <? w_pos w + 1 then Ok w
  else match w_buf w with
       | None => Ok w
       | Some b => do b' <- poke b (w_pos w) [u8 v]; Ok (mkWr (Some b') (w_len w) (u16 (w_pos w + 1)))
       end.

(** pf_block_writer.c:182-201 pf_put_mem (203-222 pf_put_mem_overlapping is the
    same for non-overlapping data). *)
Definition put_mem (l : list Z) : writer := fun w =>
  if w_len w <? w_pos w + Z.of_nat (length l) then Ok w
  else match w_buf w with
       | None => Ok w
       | Some b => do b' <- poke b (w_pos w) l; Ok (mkWr (Some b') (w_len w) (u16 (w_pos w + Z.of_nat (length l))))
       end.

(** pf_block_writer.c:244-261 pf_put_uint16. *)
Definition put_u16 (be : bool) (v : Z) : writer :=
  if be then put_byte (Z.land (Z.shiftr v 8) 255) ;; put_byte (Z.land v 255)
  else put_byte (Z.land v 255) ;; put_byte (Z.land (Z.shiftr v 8) 255).

(** pf_block_writer.c:263-284 pf_put_uint32. *)
Definition put_u32 (be : bool) (v : Z) : writer :=
  if be then put_byte (Z.land (Z.shiftr v 24) 255) ;; put_byte (Z.land (Z.shiftr v 16) 255) ;;
             put_byte (Z.land (Z.shiftr v 8) 255) ;; put_byte (Z.land v 255)
  else put_byte (Z.land v 255) ;; put_byte (Z.land (Z.shiftr v 8) 255) ;;
       put_byte (Z.land (Z.shiftr v 16) 255) ;; put_byte (Z.land (Z.shiftr v 24) 255).

(** pf_block_writer.c:286-297 pf_put_padding. *)
Fixpoint put_padding (n : nat) : writer :=
  match n with O => wskip | S k => put_byte 0 ;; put_padding k end.

(** pf_block_writer.c:299-310 pf_put_padding_align: the loop, with a bound on the
    number of iterations; None: not finished. *)
Fixpoint put_padding_align (fuel : nat) (start align : Z) (w : wr) : option (outcome wr) :=
  if Z.rem (w_pos w - start) align =? 0 then Some (Ok w)
  else match fuel with
       | O => None
       | S k => match put_byte 0 w with
                | Ok w' => put_padding_align k start align w'
                | AssertFail => Some AssertFail
                | Ub => Some Ub
                end
       end.

(** pf_block_writer.c:101-129 pf_put_str: [s] is the string before its terminator,
    [size] the size of its array.  Padded with spaces to [size - 1]. *)
Definition put_str (s : list Z) (size : Z) : writer := fun w =>
  if w_len w <? w_pos w + size then Ok w
  else match w_buf w with
       | None => Ok w
       | Some b =>
         do b' <- poke b (w_pos w) s;
         (fix spaces (n : nat) : writer := match n with O => wskip | S k => put_byte 32 ;; spaces k end)
           (Z.to_nat (size - 1) - length s)%nat (mkWr (Some b') (w_len w) (u16 (w_pos w + Z.of_nat (length s))))
       end.

(** pf_block_writer.c:488-497 pf_put_bits. *)
Definition put_bits (val len pos bits : Z) : Z :=
  Z.lor bits (u32 (Z.shiftl (Z.land val (Z.shiftl 1 len - 1)) pos)).

(** pf_block_writer.c:140-151 pf_put_uuid. *)
Definition put_uuid (be : bool) (u : uuid) : writer :=
  put_u32 be (u_d1 u) ;; put_u16 be (u_d2 u) ;; put_u16 be (u_d3 u) ;; put_mem (u_d4 u).

(** pf_block_writer.c:64-85 pf_put_block_header (sizeof (pf_block_header_t) is 6). *)
Definition put_block_header (be : bool) (ty len vh vl : Z) : writer :=
  put_u16 be ty ;; put_u16 be (u16 (len + 6 - 4)) ;; put_byte vh ;; put_byte vl.

(** The end of every block writer: the length is inserted into the header. *)
Definition put_block_len (be : bool) (start : Z) : writer := fun w =>
  let len := u16 (w_pos w - (start + 4)) in
  do w' <- put_u16 be len (mkWr (w_buf w) (w_len w) (u16 (start + 2)));
  Ok (mkWr (w_buf w') (w_len w') (w_pos w)).

(** A block: header of the given type, version 1.0, body, length. *)
Definition put_block (be : bool) (ty : Z) (body : writer) : writer := fun w =>
  (put_block_header be ty 0 1 0 ;; body ;; put_block_len be (w_pos w)) w.

(** pf_block_writer.c:1368-1420 pf_put_control. *)
Definition put_control (be : bool) (ty : Z) (k : control) : writer :=
  put_block be ty (put_byte 0 ;; put_byte 0 ;; put_uuid be (k_uuid k) ;; put_u16 be (k_session k) ;;
    put_u16 be (k_alarmseq k) ;; put_u16 be (k_command k) ;; put_u16 be (k_props k)).

(** pf_block_writer.c:1422-1435 pf_put_pnet_status. *)
Definition put_pnet_status (be : bool) (s : pnio) : writer :=
  put_u32 be (u32 (16777216 * p_code s + 65536 * p_decode s + 256 * p_code1 s + p_code2 s)).

(** pf_block_writer.c:3382-3434 pf_put_alarm_fixed. *)
Definition put_alarm_fixed (be : bool) (a : afixed) : writer :=
  put_u16 be (a_dst a) ;; put_u16 be (a_src a) ;;
  put_byte (u8 (put_bits (a_version a) 4 4 (put_bits (a_type a) 4 0 0))) ;;
  put_byte (u8 (put_bits (a_tack a) 1 4 (put_bits (a_window a) 4 0 0))) ;;
  put_u16 be (a_send a) ;; put_u16 be (a_ack a).

(** pf_block_writer.c:3540-3565: sequence number and specifier of an alarm. *)
Definition alarm_spec (d : adata) : Z :=
  u16 (put_bits (ad_ar d) 1 15 (put_bits (ad_submod d) 1 13 (put_bits (ad_manuf d) 1 12
    (put_bits (ad_channel d) 1 11 (put_bits (ad_seq d) 11 0 0))))).

(** pf_block_writer.c:3481-3633 pf_put_alarm_block for a notification ([payload]
    writes the payload) and for an acknowledge.  The acknowledge writes the status
    big endian and gives PF_FRAME_BUFFER_SIZE as buffer size. *)
Definition put_alarm_notification (be : bool) (ty : Z) (d : adata) (payload : writer) : writer :=
  put_block be ty (put_u16 be (ad_type d) ;; put_u32 be (ad_api d) ;; put_u16 be (ad_slot d) ;; put_u16 be (ad_subslot d) ;;
    put_u32 be (ad_module d) ;; put_u32 be (ad_submodule d) ;; put_u16 be (alarm_spec d) ;; payload).
Definition with_len (n : Z) (f : writer) : writer := fun w =>
  do w' <- f (mkWr (w_buf w) n (w_pos w)); Ok (mkWr (w_buf w') (w_len w) (w_pos w')).
Definition put_alarm_ack (be : bool) (ty : Z) (d : adata) (s : pnio) : writer :=
  put_block be ty (put_u16 be (ad_type d) ;; put_u32 be (ad_api d) ;; put_u16 be (ad_slot d) ;; put_u16 be (ad_subslot d) ;;
    put_u16 be (alarm_spec d) ;; with_len frame_buffer_size (put_pnet_status true s)).

(** pf_block_writer.c:1437-1545 pf_put_dce_rpc_header. *)
Definition put_dce_rpc_header (h : rpch) : writer :=
  let be := h_be h in
  let b x := if x =? 0 then 0 else 1 in
  put_byte (h_version h) ;; put_byte (h_ptype h) ;;
  put_byte (put_bits (b (h_bcast h)) 1 6 (put_bits (b (h_idem h)) 1 5 (put_bits (b (h_maybe h)) 1 4
    (put_bits (b (h_nofack h)) 1 3 (put_bits (b (h_frag h)) 1 2 (put_bits (b (h_last h)) 1 1 0))))) mod 256) ;;
  put_byte 0 ;;
  put_byte (put_bits (if be then 0 else 1) 4 4 0 mod 256) ;;
  put_byte (h_float h) ;; put_byte (h_reserved h) ;; put_byte (h_serial_high h) ;;
  put_uuid be (h_object h) ;; put_uuid be (h_interface h) ;; put_uuid be (h_activity h) ;;
  put_u32 be (h_boot h) ;; put_u32 be (h_ifver h) ;; put_u32 be (h_seq h) ;;
  put_u16 be (h_opnum h) ;; put_u16 be (h_ifhint h) ;; put_u16 be (h_acthint h) ;; put_u16 be (h_bodylen h) ;;
  put_u16 be (h_fragnmb h) ;; put_byte (h_auth h) ;; put_byte (h_serial_low h).

(** pf_block_writer.c:2528-2593 pf_put_write_result (body of the block). *)
Definition put_write_result (be : bool) (q : rwreq) (add1 add2 : Z) (s : pnio) : writer :=
  put_block be 32776 (put_u16 be (q_seq q) ;; put_uuid be (q_uuid q) ;; put_u32 be (q_api q) ;; put_u16 be (q_slot q) ;;
    put_u16 be (q_subslot q) ;; put_byte 0 ;; put_byte 0 ;; put_u16 be (q_index q) ;; put_u32 be (q_len q) ;;
    put_u16 be add1 ;; put_u16 be add2 ;; put_pnet_status be s ;; put_padding 16).

(** pf_block_writer.c:4267-4318 pf_put_peer_to_peer_boundary. *)
Definition put_boundary (be : bool) (d : boundary) : writer :=
  put_block be 548 (put_padding 2 ;;
    put_u32 be (put_bits (bd_path d) 1 2 (put_bits (bd_ptcp d) 1 1 (put_bits (bd_lldp d) 1 0 0))) ;;
    put_u16 be (bd_props d) ;; put_padding 2).
