(** Model of the reads of diagnosis data: src/device/pf_block_writer.c 2701-3374
    and the dispatch in src/device/pf_cmrdr.c 465-735. *)
From Coq Require Import List ZArith Arith Bool.
From Verif Require Import Base BlockModel IdentModel DiffModel IdentReadModel DiagModel.
Import ListNotations.
Local Open Scope Z_scope.

(** pf_block_writer.c:2701-2821 pf_put_diag_item. *)
Definition put_diag_item (be : bool) (i : ditem) (insert_usi : bool) : writer :=
  let s := d_std i in
  (if insert_usi then put_u16 be (d_usi i) else wskip) ;;
  (if d_usi i =? usi_channel then
     put_u16 be (ch_nbr s) ;; put_u16 be (ch_props s) ;; put_u16 be (ch_err s)
   else if d_usi i =? usi_extended then
     put_u16 be (ch_nbr s) ;; put_u16 be (ch_props s) ;; put_u16 be (ch_err s) ;;
     put_u16 be (ext_err s) ;; put_u32 be (add_value s)
   else if d_usi i =? usi_qualified then
     put_u16 be (ch_nbr s) ;; put_u16 be (ch_props s) ;; put_u16 be (ch_err s) ;;
     put_u16 be (ext_err s) ;; put_u32 be (add_value s) ;; put_u32 be (qualifier s)
   else put_mem (d_data i)).

(** pf_types.h:2275-2282 pf_diag_filter_level_t. *)
Inductive dfilter := FaultStd | FaultAll | FilterAll | MReq | MDem.

(** The first switch in the loop of pf_put_diag_list, pf_block_writer.c:2899-2946. *)
Definition passes (f : dfilter) (i : ditem) : bool :=
  match f with
  | FaultStd => usi_channel <=? d_usi i
  | FaultAll => (d_usi i <? usi_channel) || (maint_get (ch_props (d_std i)) =? m_fault)
  | FilterAll => true
  | MReq => (d_usi i <? usi_channel) || (maint_get (ch_props (d_std i)) =? m_required)
  | MDem => (d_usi i <? usi_channel) || (maint_get (ch_props (d_std i)) =? m_demanded)
  end.

(** pf_types.h:503. *)
Definition bt_diagnosis : Z := 16.

(** pf_block_writer.c:2844-2980 pf_put_diag_list.  [l]: the items from list_head on. *)
Definition put_diag_list (be : bool) (f : dfilter) (u a s t : Z) (l : list ditem) : writer := fun w =>
  match l with
  | [] => Ok w
  | _ :: _ =>
    do w1 <- put_block_header be bt_diagnosis 0 1 1 w;
    do w2 <- (put_u32 be a ;; put_u16 be s ;; put_u16 be t ;;
              put_u16 be whole_submodule ;; put_u16 be (spec_set sp_appears 0) ;; put_u16 be u) w1;
    do w3 <- put_all (fun i => if passes f i && (d_usi i =? u) then put_diag_item be i false else wskip) l w2;
    if w_pos w2 <? w_pos w3 then put_block_len be (w_pos w) w3
    else Ok (mkWr (w_buf w3) (w_len w3) (w_pos w))
  end.

(** pf_block_writer.c:2996-3030 pf_put_diag_subslot.  The loop ends after at most as many
    blocks as there are items (Ub is never reached). *)
Definition put_diag_subslot (be : bool) (f : dfilter) (a s t : Z) (l : list ditem) : writer := fun w =>
  match listed_usis (length l) l 0 with
  | None => Ub
  | Some us => put_all (fun u => put_diag_list be f u a s t l) us w
  end.

(** The diagnosis lists of the subslots: the items that are found from subslot->diag_list
    on for API, slot and subslot. *)
Definition dlists := Z -> Z -> Z -> list ditem.
Definition put_place (be : bool) (f : dfilter) (dl : dlists) (a s t : Z) : writer := put_diag_subslot be f a s t (dl a s t).

(** pf_block_writer.c:3045-3075 pf_put_diag_slot. *)
Definition put_diag_slot (be : bool) (f : dfilter) (dl : dlists) (a : Z) (y : rslot) : writer :=
  put_all (fun z => if rs_use z then put_place be f dl a (rl_num y) (rs_num z) else wskip) (rl_subs y).

(** pf_block_writer.c:3091-3126 pf_put_diag_ar_slot. *)
Definition put_diag_ar_slot (be : bool) (f : dfilter) (dl : dlists) (a : Z) (y : rslot) (m : xmod) : writer := fun w =>
  do l <- upto (xm_n m) (xm_subs m);
  put_all (fun e => match get_sub y (xs_num e) with
                    | Some z => if rs_ident z =? xs_ident e then put_place be f dl a (rl_num y) (rs_num z) else wskip
                    | None => wskip
                    end) l w.

(** pf_block_writer.c:3140-3168 pf_put_diag_api. *)
Definition put_diag_api (be : bool) (f : dfilter) (dl : dlists) (x : rapi) : writer :=
  put_all (fun y => if rl_use y then put_diag_slot be f dl (ra_num x) y else wskip) (ra_slots x).

(** pf_cmdev.c:1824-1840 pf_cmdev_get_exp_api and 1842-1865 pf_cmdev_get_exp_mod. *)
Definition get_exp_mod (i : xid) (a s : Z) : outcome (option xmod) :=
  do x <- search xa_num a (xi_n i) (xi_apis i);
  match x with Some x => search xm_num s (xa_n x) (xa_mods x) | None => Ok None end.
(** pf_cmdev.c:1867-1893 pf_cmdev_get_exp_sub. *)
Definition get_exp_sub (i : xid) (a s t : Z) : outcome (option xsub) :=
  do m <- get_exp_mod i a s;
  match m with Some m => search xs_num t (xm_n m) (xm_subs m) | None => Ok None end.

(** pf_cmdev.c:256-274 pf_cmdev_get_slot_full. *)
Definition get_slot_full (d : dev) (a s : Z) : option rslot := match get_api d a with Some x => get_slot x s | None => None end.

(** pf_block_writer.c:3170-3228 pf_put_diagnosis_subslot. *)
Definition put_diagnosis_subslot (be : bool) (f : dfilter) (d : dev) (dl : dlists) (ar : option xid) (a s t : Z) : writer := fun w =>
  match get_slot_full d a s with
  | None => Ok w
  | Some y =>
    match get_sub y t with
    | None => Ok w
    | Some z =>
      match ar with
      | None => put_place be f dl a s t w
      | Some i =>
        do m <- get_exp_mod i a s;
        do e <- match m with Some _ => get_exp_sub i a s t | None => Ok None end;
        match m, e with
        | Some m, Some e =>
          if negb (xm_ident m =? rl_ident y) || negb (xs_ident e =? rs_ident z) then Ok w else put_place be f dl a s t w
        | _, _ => put_place be f dl a s t w
        end
      end
    end
  end.

(** pf_block_writer.c:3230-3275 pf_put_diagnosis_slot. *)
Definition put_diagnosis_slot (be : bool) (f : dfilter) (d : dev) (dl : dlists) (ar : option xid) (a s : Z) : writer := fun w =>
  match get_slot_full d a s with
  | None => Ok w
  | Some y =>
    do m <- match ar with Some i => get_exp_mod i a s | None => Ok None end;
    match m with
    | None => put_diag_slot be f dl a y w
    | Some m => if xm_ident m =? rl_ident y then put_diag_ar_slot be f dl a y m w else Ok w
    end
  end.

(** pf_block_writer.c:3277-3325 pf_put_diagnosis_ar. *)
Definition put_diagnosis_ar (be : bool) (f : dfilter) (d : dev) (dl : dlists) (ar : option xid) : writer := fun w =>
  match ar with
  | None => Ok w
  | Some i =>
    do l <- upto (xi_n i) (xi_apis i);
    put_all (fun xa =>
      match get_api d (xa_num xa) with
      | None => wskip
      | Some x => fun w =>
        do k <- upto (xa_n xa) (xa_mods xa);
        put_all (fun m => match get_slot x (xm_num m) with
                          | None => wskip
                          | Some y => if rl_ident y =? xm_ident m then put_diag_ar_slot be f dl (ra_num x) y m else wskip
                          end) k w
      end) l w
  end.

(** pf_block_writer.c:3327-3349 pf_put_diagnosis_api. *)
Definition put_diagnosis_api (be : bool) (f : dfilter) (d : dev) (dl : dlists) (a : Z) : writer :=
  match get_api d a with Some x => put_diag_api be f dl x | None => wskip end.

(** pf_block_writer.c:3351-3380 pf_put_diagnosis_device. *)
Definition put_diagnosis_device (be : bool) (f : dfilter) (d : dev) (dl : dlists) : writer :=
  put_all (fun x => if ra_use x then put_diag_api be f dl x else wskip) d.

(** The indexes of pf_types.h:606-732 with the scope and the filter of their case in
    pf_cmrdr_rm_read_ind, pf_cmrdr.c:465-735. *)
Definition diag_table : list (Z * (scope * dfilter)) :=
  [(32778, (SubslotOf, FaultStd)); (32779, (SubslotOf, FaultAll)); (32780, (SubslotOf, FilterAll));
   (32784, (SubslotOf, MReq)); (32786, (SubslotOf, MReq)); (32785, (SubslotOf, MDem)); (32787, (SubslotOf, MDem));
   (49162, (SlotOf, FaultStd)); (49163, (SlotOf, FaultAll)); (49164, (SlotOf, FilterAll));
   (49168, (SlotOf, MReq)); (49170, (SlotOf, MReq)); (49169, (SlotOf, MDem)); (49171, (SlotOf, MDem));
   (61450, (ApiOf, FaultStd)); (61451, (ApiOf, FaultAll)); (61452, (ApiOf, FilterAll));
   (61456, (ApiOf, MReq)); (61458, (ApiOf, MReq)); (61457, (ApiOf, MDem)); (61459, (ApiOf, MDem));
   (57354, (ArOf, FaultStd)); (57355, (ArOf, FaultAll)); (57356, (ArOf, FilterAll));
   (57360, (ArOf, MReq)); (57362, (ArOf, MReq)); (57361, (ArOf, MDem)); (57363, (ArOf, MDem));
   (63500, (DeviceOf, FilterAll))].
Definition read_diag (d : dev) (dl : dlists) (ar : option xid) (a s t idx : Z) : option writer :=
  match find (fun x => fst x =? idx) diag_table with
  | None => None
  | Some (_, (SubslotOf, f)) => Some (put_diagnosis_subslot true f d dl ar a s t)
  | Some (_, (SlotOf, f)) => Some (put_diagnosis_slot true f d dl ar a s)
  | Some (_, (ApiOf, f)) => Some (put_diagnosis_api true f d dl a)
  | Some (_, (ArOf, f)) => Some (put_diagnosis_ar true f d dl ar)
  | Some (_, (DeviceOf, f)) => Some (put_diagnosis_device true f d dl)
  end.
