(** Model of the I&M data and of the log book: src/device/pf_fspm.c, pf_get_im_1 in
    src/device/pf_block_reader.c, pf_put_im_1/2/3 and pf_put_log_book_data in
    src/device/pf_block_writer.c. *)
From Coq Require Import List ZArith Arith Bool.
From Verif Require Import Base CpmModel BlockModel.
Import ListNotations.
Local Open Scope Z_scope.

(** * I&M data *)

(** pnet_api.h:1153-1194 pnet_im_1_t to pnet_im_4_t: the arrays im_tag_function
    [33], im_tag_location [23], im_date [17], im_descriptor [55] and im_signature
    [54].  All but the last hold a string with terminator. *)
Record im := mkIm { i_fun : list Z; i_loc : list Z; i_date : list Z; i_desc : list Z; i_sig : list Z }.

(** The bytes before the terminator (all, if there is none). *)
Fixpoint before_nul (l : list Z) : list Z :=
  match l with [] => [] | x :: l => if x =? 0 then [] else x :: before_nul l end.

(** pf_types.h:666-681: indexes of the I&M records. *)
Definition ix_im0 : Z := 45040.
Definition ix_im15 : Z := 45055.

(** pf_block_reader.c:856-870 pf_get_im_1. *)
Definition get_im_1 (f l : list Z) : reader (list Z * list Z) :=
  rdo f1 <- get_mem_into 33 f 32;
  rdo f2 <- put_nul f1 32;
  rdo l1 <- get_mem_into 23 l 22;
  rdo l2 <- put_nul l1 22;
  rret (f2, l2).

(** PNET_ERROR_CODE_WRITE, PNET_ERROR_DECODE_PNIORW and the codes used below:
    pnet_api.h:125-165. *)
Definition write_error (c1 : Z) : pnio := mkPnio 223 128 c1 0.
Definition err_index : Z := 176.
Definition err_length : Z := 177.
Definition err_denied : Z := 182.

(** (supported & PNET_SUPPORTED_IMk) > 0: pnet_api.h:1098-1106. *)
Definition supports (sup k : Z) : bool := 0 <? Z.land sup (Z.shiftl 1 k).

(** pf_fspm.c:848-1144 pf_fspm_cm_write_ind for the indexes of I&M records: the data
    after the write and the error (None: accepted).  [d] are the write_length bytes
    at p_write_data.  The parser of I&M1 has write_length bytes; it works on the
    configuration itself.  The indication to SNMP is left out. *)
Definition write_im (sup : Z) (m : im) (ix : Z) (d : list Z) : outcome (im * option pnio) :=
  let n := Z.of_nat (length d) in
  let k := ix - ix_im0 in
  if k =? 0 then Ok (m, Some (write_error err_denied))
  else if (4 <? k) then Ok (m, Some (write_error err_index))
  else if negb (supports sup k) then Ok (m, Some (write_error err_index))
  else if k =? 1 then
    do x <- get_im_1 (i_fun m) (i_loc m) (mkRd (Some d) n true POk 0);
    let '((f, l), r) := x in
    let m' := mkIm f l (i_date m) (i_desc m) (i_sig m) in
    if is_ok (r_res r) && (r_pos r =? n) then Ok (m', None) else Ok (m', Some (write_error err_length))
  else if k =? 2 then
    if n =? 16 then Ok (mkIm (i_fun m) (i_loc m) (d ++ [0]) (i_desc m) (i_sig m), None)
    else Ok (m, Some (write_error err_length))
  else if k =? 3 then
    if n =? 54 then Ok (mkIm (i_fun m) (i_loc m) (i_date m) (d ++ [0]) (i_sig m), None)
    else Ok (m, Some (write_error err_length))
  else
    if n =? 54 then Ok (mkIm (i_fun m) (i_loc m) (i_date m) (i_desc m) d, None)
    else Ok (m, Some (write_error err_length)).

(** pf_fspm.c:659-846 pf_fspm_cm_read_ind for I&M1 to I&M4: the length that is handed
    back (0: not supported, see pf_cmrdr.c:110-112). *)
Definition im_length (sup k : Z) : Z :=
  if negb (supports sup k) then 0
  else if k =? 1 then 56 else if k =? 2 then 17 else if k =? 3 then 55 else if k =? 4 then 54 else 0.

(** pf_block_writer.c:2395-2434 pf_put_im_1, 2436-2464 pf_put_im_2, 2466-2494 pf_put_im_3, and
    1547-1577 pf_put_record_data_read for I&M4. *)
Definition put_im (m : im) (k : Z) : writer :=
  if k =? 1 then put_block true 33 (put_str (before_nul (i_fun m)) 33 ;; put_str (before_nul (i_loc m)) 23)
  else if k =? 2 then put_block true 34 (put_str (before_nul (i_date m)) 17)
  else if k =? 3 then put_block true 35 (put_str (before_nul (i_desc m)) 55)
  else put_block true 36 (put_mem (i_sig m)).

(** snprintf of "%-22s" to an array of 23 bytes. *)
Definition padded22 (s : list Z) : list Z :=
  firstn 22 (before_nul s ++ repeat 32 22) ++ [0].

(** pf_fspm.c:386-395 pf_fspm_set_im_location. *)
Definition set_location (m : im) (s : list Z) : im := mkIm (i_fun m) (padded22 s) (i_date m) (i_desc m) (i_sig m).

(** pf_fspm.c:505-543 pf_fspm_clear_im_data. *)
Definition clear_im : im :=
  mkIm (repeat 32 32 ++ [0]) (repeat 32 22 ++ [0]) (repeat 32 16 ++ [0]) (repeat 32 54 ++ [0]) (repeat 0 54).

(** The stack and its file with I&M data. *)
Record fstat := mkFst { s_im : im; s_file : option im }.

(** What happens.  [ok]: writing the file succeeded. *)
Inductive fev :=
  | WriteRec (ix : Z) (d : list Z) (ok : bool)
  | SetLoc (s : list Z)
  | ClearAll
  | SaveJob (ok : bool)
  | PowerUp (ok : bool).

(** pf_fspm.c:325-373 pf_fspm_save_im.  The file system is modelled in FileModel.v:
    here a save either replaces the contents or leaves them as they are. *)
Definition save_im (ok : bool) (s : fstat) : fstat := if ok then mkFst (s_im s) (Some (s_im s)) else s.

(** One event.  WriteRec: pf_fspm.c:836-1146 with the save at 1133-1136.  SetLoc and
    ClearAll (397-411, 505-545) leave the file to the background job SaveJob
    (pf_bg_worker.c:113).  PowerUp: pf_fspm.c:414-454 pf_fspm_init with [def] the
    user's configuration, 292-323 pf_fspm_load_im. *)
Definition fstep (sup : Z) (def : im) (s : fstat) (e : fev) : outcome fstat :=
  match e with
  | WriteRec ix d ok =>
    do x <- write_im sup (s_im s) ix d;
    let '(m, r) := x in
    match r with None => Ok (save_im ok (mkFst m (s_file s))) | Some _ => Ok (mkFst m (s_file s)) end
  | SetLoc l => Ok (mkFst (set_location (s_im s) l) (s_file s))
  | ClearAll => Ok (mkFst clear_im (s_file s))
  | SaveJob ok => Ok (save_im ok s)
  | PowerUp ok => Ok (save_im ok (mkFst (match s_file s with Some m => m | None => def end) (s_file s)))
  end.
Fixpoint frun (sup : Z) (def : im) (s : fstat) (h : list fev) : outcome fstat :=
  match h with [] => Ok s | e :: h => do s' <- fstep sup def s e; frun sup def s' h end.

(** * Log book *)

(** pf_types.h:2456-2483 pf_log_book_entry_t.  The status of the time is always
    PF_TS_STATUS_LOCAL_ARB, sec_hi always 0. *)
Record entry := mkEntry { g_sec : Z; g_nano : Z; g_uuid : uuid; g_status : pnio; g_detail : Z }.
Definition entry0 : entry := mkEntry 0 0 (mkUuid 0 0 0 (repeat 0 8)) (mkPnio 0 0 0 0) 0.

(** pf_types.h:2485-2491 pf_log_book_t: the array, put and wrap.  time_ts stays 0. *)
Record book := mkBook { b_ent : list entry; b_put : nat; b_wrap : bool }.
Definition book0 (n : nat) : book := mkBook (repeat entry0 n) 0 false.

Definition set_nth {A} (l : list A) (k : nat) (x : A) : list A := firstn k l ++ [x] ++ skipn (S k) l.

(** pf_fspm.c:456-503 pf_fspm_create_log_book_entry: [ar] is the UUID of the
    connection, None if there is none with this number; [time] in microseconds. *)
Definition add_entry (b : book) (ar : option uuid) (time : Z) (st : pnio) (detail : Z) : outcome book :=
  match ar with
  | None => Ok b
  | Some u =>
    let n := length (b_ent b) in
    let put := S (b_put b) in
    let '(put', wrap') := if (n <=? put)%nat then (O, true) else (put, b_wrap b) in
    if (b_put b <? n)%nat
    then Ok (mkBook (set_nth (b_ent b) (b_put b) (mkEntry (time / 1000000) (time mod 1000000 * 1000) u st detail)) put' wrap')
    else Ub
  end.

(** pf_block_writer.c:2617-2631: first index and announced number. *)
Definition book_first (b : book) : nat :=
  if b_wrap b then let ix := S (b_put b) in if (length (b_ent b) <=? ix)%nat then O else ix else O.
Definition book_count (b : book) : Z :=
  Z.of_nat (if b_wrap b then length (b_ent b) else b_put b).

(** pf_block_writer.c:2642-2673: the entries visited by the loop; None: not finished
    within [fuel] iterations. *)
Fixpoint book_walk (fuel : nat) (b : book) (ix : nat) : option (list entry) :=
  if (ix =? b_put b)%nat then Some []
  else match fuel with
       | O => None
       | S k =>
         match nth_error (b_ent b) ix with
         | None => None
         | Some e =>
           let ix' := if (length (b_ent b) <=? S ix)%nat then O else S ix in
           match book_walk k b ix' with Some l => Some (e :: l) | None => None end
         end
       end.

(** pf_block_writer.c:321-331 pf_put_time_timestamp. *)
Definition put_time (be : bool) (hi lo nano : Z) : writer := put_u16 be hi ;; put_u16 be lo ;; put_u32 be nano.

Definition put_entry (be : bool) (e : entry) : writer :=
  put_time be 0 (g_sec e) (g_nano e) ;; put_uuid be (g_uuid e) ;; put_pnet_status be (g_status e) ;; put_u32 be (g_detail e).
Fixpoint put_entries (be : bool) (l : list entry) : writer :=
  match l with [] => wskip | e :: l => put_entry be e ;; put_entries be l end.

(** pf_block_writer.c:2595-2680 pf_put_log_book_data. *)
Definition put_log_book (be : bool) (b : book) : option writer :=
  match book_walk (length (b_ent b)) b (book_first b) with
  | None => None
  | Some l => Some (put_block be 25 (put_time be 0 0 0 ;; put_u16 be (book_count b) ;; put_entries be l))
  end.
