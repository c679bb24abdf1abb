(** The record that tells about the connections of a device: src/device/pf_block_writer.c
    pf_put_iocr, pf_put_one_ar, pf_put_ar_data. *)
From Coq Require Import List ZArith Bool.
From Verif Require Import Base BlockModel DiffModel ConnRspModel.
Import ListNotations.
Local Open Scope Z_scope.

(** pf_types.h:1389-1400 pf_ar_properties_t. *)
Record props := mkProps { f_state : Z; f_takeover : bool; f_server : bool; f_access : bool; f_companion : Z; f_ack : bool; f_combined : bool; f_advanced : bool; f_pull : bool }.
(** What is used of pf_iocr_t: class, type, frame id, and the data status of the producer and
    of the consumer. *)
Record rel := mkRel { l_class : Z; l_type : Z; l_frame : Z; l_ppm : Z; l_cpm : Z }.
(** What is used of pf_ar_t.  [d_remote], [d_local]: the alarm references of the controller and
    of the device; [d_vendors]: nbr_ar_vendor, 0 without PNET_OPTION_AR_VENDOR_BLOCKS.  The
    options IR, SR, FAST_STARTUP, SRL, RS and PARAMETER_SERVER are off. *)
Record ard := mkArd { d_uuid : uuid; d_obj : uuid; d_props : props; d_type : Z; d_alarm : Z; d_remote : Z; d_local : Z; d_iport : Z; d_rport : Z;
  d_name : list Z; d_rels : list rel; d_apis : list Z; d_vendors : nat }.

Definition nil_uuid : uuid := mkUuid 0 0 0 (repeat 0 8).
(** A free entry of the table: pf_cmrpc.c:758-802 pf_ar_release sets all bytes to 0. *)
Definition free_ar : ard := mkArd nil_uuid nil_uuid (mkProps 0 false false false 0 false false false false) 0 0 0 0 0 0 [] [] [] 0.
Definition slot (o : option ard) : ard := match o with Some a => a | None => free_ar end.

(** pf_block_writer.c:840-880 pf_put_iocr. *)
Definition rel_status (r : rel) : Z := if (l_type r =? 1) || (l_type r =? 3) then l_ppm r else l_cpm r.
Definition put_iocr (be : bool) (r : rel) : writer :=
  put_u32 be (put_bits (l_class r) 4 0 0) ;; put_u16 be (l_type r) ;; put_u16 be (l_frame r) ;; put_u16 be 0 ;; put_byte (rel_status r) ;; put_byte 0.

(** pf_block_writer.c:1025-1054, in pf_put_one_ar: the properties. *)
Definition props_word (f : props) : Z :=
  put_bits (b2z (f_pull f)) 1 31 (put_bits (b2z (f_advanced f)) 1 30 (put_bits (b2z (f_combined f)) 1 29 (put_bits (b2z (f_ack f)) 1 11 (put_bits (f_companion f) 2 9
    (put_bits (b2z (f_access f)) 1 8 (put_bits (b2z (f_server f)) 1 4 (put_bits (b2z (f_takeover f)) 1 3 (put_bits (f_state f) 3 0 0)))))))).

(** pf_block_writer.c:1166-1171 and 1233-1238, in pf_put_one_ar: the number of further blocks
    is 0 at first, and inserted at the end.  [n]: the number; the writers of these blocks are
    empty (ToDo). *)
Definition put_further (fuel : nat) (be : bool) (n : Z) : writer := fun w =>
  do w1 <- (put_u16 be 0 ;; align fuel 0) w;
  do w2 <- put_u16 be n (mkWr (w_buf w1) (w_len w1) (w_pos w));
  Ok (mkWr (w_buf w2) (w_len w2) (w_pos w1)).

(** pf_block_writer.c:974-1239 pf_put_one_ar.  [only]: the API, with api_filter. *)
Definition put_one_ar (fuel : nat) (be : bool) (only : option Z) (a : ard) : writer :=
  put_uuid be (d_uuid a) ;; put_uuid be (d_obj a) ;; put_uuid be nil_uuid ;; put_u32 be (props_word (d_props a)) ;; put_u16 be (d_type a) ;;
  put_u16 be (d_alarm a) ;; put_u16 be (d_remote a) ;; put_u16 be (d_local a) ;; put_u16 be (d_iport a) ;; put_u16 be (d_rport a) ;;
  put_u16 be (Z.of_nat (length (d_name a))) ;; put_mem (d_name a) ;; align fuel 0 ;;
  put_u16 be 0 ;; align fuel 0 ;;
  put_u16 be (Z.of_nat (length (d_rels a))) ;; align fuel 0 ;; each (put_iocr be) (d_rels a) ;;
  put_u16 be (Z.of_nat (length (d_apis a))) ;; align fuel 0 ;;
  each (put_u32 be) (match only with None => d_apis a | Some i => filter (fun x => x =? i) (d_apis a) end) ;;
  put_further fuel be (u16 (2 * Z.of_nat (d_vendors a))).

(** pf_block_writer.c:1284-1286 and 1316-1318, in pf_put_ar_data. *)
Definition is_listed (a : ard) : bool := negb (u_d1 (d_uuid a) =? 0) && negb (u_d1 (d_obj a) =? 0).

(** pf_block_writer.c:1241-1366 pf_put_ar_data.  [t]: the first PNET_MAX_AR entries of the
    table of connections; [scope]: the connection of the reader and the API. *)
Definition put_ar_data (fuel : nat) (be : bool) (t : list (option ard)) (scope : option (ard * Z)) : writer := fun w =>
  do w1 <- put_block_header be 24 0 1 1 w;
  let n := match scope with
           | None => length (filter is_listed (map slot t))
           | Some (a, i) => length (filter (fun x => x =? i) (d_apis a))
           end in
  do w2 <- (if (0 <? n)%nat then put_u16 be (u16 (Z.of_nat n)) else wskip) w1;
  do w3 <- match scope with
           | None => each (put_one_ar fuel be None) (filter is_listed (map slot t))
           | Some (a, i) => each (fun _ : Z => put_one_ar fuel be (Some i) a) (filter (fun x => x =? i) (d_apis a))
           end w2;
  if w_pos w1 <? w_pos w3 then put_block_len be (w_pos w) w3 else Ok (mkWr (w_buf w3) (w_len w3) (w_pos w)).

(** pf_cmrdr.c:738-751, in pf_cmrdr_rm_read_ind: the two indices (PF_IDX_API_AR_DATA,
    PF_IDX_DEV_AR_DATA).  [me]: the connection of the reader, None for an implicit read. *)
Definition read_ar_data (fuel : nat) (t : list (option ard)) (index : Z) (me : option ard) (api : Z) : writer :=
  if index =? 61472 then put_ar_data fuel true t (match me with Some a => Some (a, api) | None => None end)
  else if index =? 63520 then put_ar_data fuel true t None
  else wskip.
