(** Reads of input and output data as records: src/device/pf_cmrdr.c 346-455 and the writers
    of their blocks, on the consumer of CpmModel.v and the producer of PpmModel.v. *)
From Coq Require Import List ZArith Bool.
From Verif Require Import Base BlockModel CpmModel PpmModel.
Import ListNotations.
Local Open Scope Z_scope.

(** pf_block_writer.c:3745-3785 pf_put_input_data. *)
Definition put_input_data (be : bool) (iocs iops data : list Z) : writer :=
  put_block be 21 (
    put_byte (u8 (Z.of_nat (length iocs))) ;; put_mem iocs ;;
    put_byte (u8 (Z.of_nat (length iops))) ;; put_mem iops ;;
    put_u16 be (u16 (Z.of_nat (length data))) ;; put_mem data).

(** pf_block_writer.c:3635-3673 pf_put_substitute_data. *)
Definition put_substitute_data (be : bool) (mode : Z) (iocs iops data : list Z) : writer :=
  put_block be 20 (put_u16 be mode ;; put_mem iocs ;; put_mem data ;; put_mem iops).

(** pf_block_writer.c:3675-3743 pf_put_output_data.  [sub]: the substitute data, which has
    the length of the data. *)
Definition put_output_data (be active : bool) (iocs iops data : list Z) (mode : Z) (sub : option (list Z)) : writer :=
  put_block be 22 (
    put_u16 be (if active then 1 else 0) ;;
    put_byte (u8 (Z.of_nat (length iocs))) ;; put_byte (u8 (Z.of_nat (length iops))) ;; put_u16 be (u16 (Z.of_nat (length data))) ;;
    put_mem iocs ;; put_mem data ;; put_mem iops ;;
    match sub with Some s => put_substitute_data be mode iocs iops s | None => wskip end).

Definition empty (l : list Z) : bool := match l with [] => true | _ => false end.

(** pf_cmrdr.c:346-393, in pf_cmrdr_rm_read_ind: PF_IDX_SUB_INPUT_DATA.  [o]: the provider
    relation with its producer, [k]: API, slot and subslot; [c], [e]: the consumer and its
    descriptor of the submodule, if pf_cpm_get_ar_iocr_desc finds one.  The buffers have
    1500 and 255 bytes.  None: -1 is returned and nothing written. *)
Definition read_input (o : iocr) (k : Z * Z * Z) (c : cpm) (e : option iodata) (w : wr) : outcome (cpm * option wr) :=
  do p <- pget_data o k 1500 255;
  let '(data, iops) := match p with Some x => x | None => ([], []) end in
  do q <- match e with Some d => get_iocs c d 255 | None => Ok (c, (-1, [])) end;
  let '(c', (r, x)) := q in
  let iocs := if r =? 0 then x else [] in
  if empty data && empty iops && empty iocs then Ok (c', None)
  else do w' <- put_input_data true iocs iops data w; Ok (c', Some w').

(** pf_cmrdr.c:394-455, in pf_cmrdr_rm_read_ind: PF_IDX_SUB_OUTPUT_DATA. *)
Definition read_output (o : iocr) (k : Z * Z * Z) (c : cpm) (e : option iodata) (w : wr) : outcome (cpm * option wr) :=
  do q <- match e with Some d => get_data_and_iops c d 1500 255 | None => Ok (c, rd_fail) end;
  let '(c', r) := q in
  let '(data, iops) := if r_ret r =? 0 then (r_data r, r_iops r) else ([], []) in
  do p <- pget_iocs o k 255;
  let iocs := match p with Some x => x | None => [] end in
  if empty data && empty iops && empty iocs then Ok (c', None)
  else do w' <- put_output_data true false iocs iops data 0 (Some data) w; Ok (c', Some w').
