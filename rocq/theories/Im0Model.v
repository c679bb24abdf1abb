(** Reading I&M0 and I&M0FilterData: src/device/pf_block_writer.c pf_put_im_0 and
    pf_put_im_0_filter_data and their cases in src/device/pf_cmrdr.c. *)
From Coq Require Import List ZArith Bool.
From Verif Require Import Base BlockModel IdentModel DiffModel IdentReadModel FspmModel.
Import ListNotations.
Local Open Scope Z_scope.

(** pnet_api.h:1113-1142 pnet_im_0_t: the strings with their terminators. *)
Record im0 := mkIm0 { z_vhi : Z; z_vlo : Z; z_order : list Z; z_serial : list Z; z_hw : Z; z_prefix : Z; z_func : Z; z_fix : Z; z_intern : Z;
  z_count : Z; z_profile : Z; z_type : Z; z_major : Z; z_minor : Z; z_supported : Z }.
(** sizeof (pnet_im_0_t). *)
Definition im0_sizeof : Z := 56.

(** pf_block_writer.c:2322-2393 pf_put_im_0. *)
Definition put_im_0 (be : bool) (m : im0) : writer :=
  put_block be 32 (put_byte (z_vhi m) ;; put_byte (z_vlo m) ;; put_str (before_nul (z_order m)) 21 ;; put_str (before_nul (z_serial m)) 17 ;;
    put_u16 be (z_hw m) ;; put_byte (z_prefix m) ;; put_byte (z_func m) ;; put_byte (z_fix m) ;; put_byte (z_intern m) ;;
    put_u16 be (z_count m) ;; put_u16 be (z_profile m) ;; put_u16 be (z_type m) ;; put_byte (z_major m) ;; put_byte (z_minor m) ;;
    put_u16 be (z_supported m)).

(** pf_block_writer.c:2242-2320 pf_put_im_0_filter_data. *)
Definition put_filter (be : bool) (d : dev) : writer :=
  put_block be 48 (put_real_device_data be d SubslotOf None 0 0 1) ;;
  put_block be 50 (put_real_device_data be d SubslotOf None 0 0 1).

(** pf_cmrdr.c:153-169, in pf_cmrdr_rm_read_ind, with pf_fspm.c:714-739, in pf_fspm_cm_read_ind (its
    test of the size is weaker): whether ret is 0, and the response.  API, slot and subslot of the
    request are not used. *)
Definition read_im0 (m : im0) (d : dev) (api slot subslot index : Z) (w : wr) : outcome (bool * wr) :=
  if index =? 63552 then do x <- put_filter true d w; Ok (true, x)
  else if index =? 45040 then
    if w_pos w + im0_sizeof <? w_len w then do x <- put_im_0 true m w; Ok (true, x) else Ok (false, w)
  else Ok (false, w).
