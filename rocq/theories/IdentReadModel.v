(** Model of the reads of identification data: src/device/pf_block_writer.c 1644-2228
    and the dispatch in src/device/pf_cmrdr.c 226-345. *)
From Coq Require Import List ZArith Arith Bool.
From Verif Require Import Base BlockModel IdentModel DiffModel.
Import ListNotations.
Local Open Scope Z_scope.

(** * Counters that are inserted afterwards *)

(** pf_put_uint16 at a position that was kept; the position in the buffer stays. *)
Definition patch_u16 (be : bool) (at_pos v : Z) : writer := fun w =>
  do w' <- put_u16 be v (mkWr (w_buf w) (w_len w) at_pos); Ok (mkWr (w_buf w') (w_len w') (w_pos w)).

(** The loops that write some elements of an array and count them: [f] gives what is
    written for an element, if anything. *)
Fixpoint put_some {A} (f : A -> option writer) (l : list A) (n : Z) (w : wr) : outcome (Z * wr) :=
  match l with
  | [] => Ok (n, w)
  | x :: r =>
    match f x with
    | Some g => do w1 <- g w; put_some f r (u16 (n + 1)) w1
    | None => put_some f r n w
    end
  end.

(** count = 0, count_pos = *pos, the count, the loop, the count again at count_pos. *)
Definition put_counted {A} (be : bool) (f : A -> option writer) (l : list A) : writer := fun w =>
  do w1 <- put_u16 be 0 w;
  do (n, w2) <- put_some f l 0 w1;
  patch_u16 be (w_pos w) n w2.

(** The first [n] elements of an array; beyond its end is undefined behaviour (here
    before the loop, in the code when the end is reached). *)
Definition upto {A} (n : nat) (l : list A) : outcome (list A) := if (n <=? length l)%nat then Ok (firstn n l) else Ub.

(** Loops that write all elements. *)
Fixpoint put_all {A} (f : A -> writer) (l : list A) : writer :=
  match l with [] => fun w => Ok w | x :: r => f x ;; put_all f r end.

(** * Real identification data *)

(** pf_block_writer.c:1644-1653 pf_put_subslot_data. *)
Definition put_subslot_data (be : bool) (z : rsub) : writer := put_u16 be (rs_num z) ;; put_u32 be (rs_ident z).

(** pf_block_writer.c:1669-1731 pf_put_slot_data. *)
Definition put_slot_data (be : bool) (y : rslot) (sub : option rsub) (e : option xmod) : writer :=
  put_u16 be (rl_num y) ;; put_u32 be (rl_ident y) ;;
  match e with
  | Some m => fun w =>
    do l <- upto (xm_n m) (xm_subs m);
    put_counted be (fun s => option_map (put_subslot_data be) (get_sub y (xs_num s))) l w
  | None =>
    match sub with
    | Some z => put_u16 be 1 ;; put_subslot_data be z
    | None => put_counted be (fun z => if rs_use z then Some (put_subslot_data be z) else None) (rl_subs y)
    end
  end.

(** pf_block_writer.c:1749-1820 pf_put_api_data. *)
Definition put_api_data (be : bool) (x : rapi) (slot : option rslot) (sub : option rsub) (e : option xapi) : writer :=
  put_u32 be (ra_num x) ;;
  match e with
  | Some a => fun w =>
    do l <- upto (xa_n a) (xa_mods a);
    put_counted be (fun m => option_map (fun y => put_slot_data be y None (Some m)) (get_slot x (xm_num m))) l w
  | None =>
    match slot with
    | Some y => put_u16 be 1 ;; put_slot_data be y sub None
    | None => put_counted be (fun y => if rl_use y then Some (put_slot_data be y None None) else None) (ra_slots x)
    end
  end.

(** pf_types.h pf_record_data_scope_t: what is asked for. *)
Inductive scope := SubslotOf | SlotOf | ApiOf | ArOf | DeviceOf.

(** pf_block_writer.c:1822-1927 pf_put_real_device_data. *)
Definition put_real_device_data (be : bool) (d : dev) (sc : scope) (e : option xid) (a s t : Z) : writer :=
  match sc with
  | ArOf =>
    match e with
    | None => fun w => Ok w
    | Some i => fun w =>
      do l <- upto (xi_n i) (xi_apis i);
      put_counted be (fun xa => option_map (fun x => put_api_data be x None None (Some xa)) (get_api d (xa_num xa))) l w
    end
  | DeviceOf => put_counted be (fun x => if ra_use x then Some (put_u32 be (ra_num x)) else None) d
  | _ =>
    let api := get_api d a in
    let slot := match sc, api with ApiOf, _ => None | _, Some x => get_slot x s | _, None => None end in
    let sub := match sc, slot with SubslotOf, Some y => get_sub y t | _, _ => None end in
    let found := match sc with
                 | ApiOf => match api with Some _ => true | None => false end
                 | SlotOf => match slot with Some _ => true | None => false end
                 | _ => match sub with Some _ => true | None => false end
                 end in
    if found then put_u16 be 1 ;; match api with Some x => put_api_data be x slot sub None | None => fun _ => Ub end
    else fun w => Ok w
  end.

(** pf_types.h:505-513. *)
Definition bt_expected_ident : Z := 18.
Definition bt_real_ident : Z := 19.
Definition bt_api_data : Z := 26.

(** What is needed of pf_ar_t: whether ar_type is PF_ART_IOSAR, and exp_ident. *)
Record rar := mkRar { r_iosar : bool; r_exp : xid }.

(** pf_block_writer.c:1929-2013 pf_put_real_ident_data. *)
Definition put_real_ident_data (be : bool) (vl : Z) (d : dev) (sc : scope) (ar : option rar) (a s t : Z) : writer := fun w =>
  do w1 <- put_block_header be (match sc with DeviceOf => bt_api_data | _ => bt_real_ident end) 0 1 vl w;
  do w2 <- match sc with
           | ArOf =>
             match ar with
             | Some r => if r_iosar r then Ok w1 else put_real_device_data be d sc (Some (r_exp r)) a s t w1
             | None => Ok w1
             end
           | _ => put_real_device_data be d sc None a s t w1
           end;
  if w_pos w1 <? w_pos w2 then put_block_len be (w_pos w) w2
  else Ok (mkWr (w_buf w2) (w_len w2) (w_pos w)).

(** * Expected identification data *)

(** pf_block_writer.c:2027-2036 pf_put_exp_submodule_data. *)
Definition put_exp_submodule_data (be : bool) (e : xsub) : writer := put_u16 be (xs_num e) ;; put_u32 be (xs_ident e).

(** pf_block_writer.c:2051-2081 pf_put_exp_module_data. *)
Definition put_exp_module_data (be : bool) (m : xmod) (sub : option xsub) : writer :=
  put_u16 be (xm_num m) ;; put_u32 be (xm_ident m) ;;
  match sub with
  | Some e => put_u16 be 1 ;; put_exp_submodule_data be e
  | None => put_u16 be (u16 (Z.of_nat (xm_n m))) ;;
    fun w => do l <- upto (xm_n m) (xm_subs m); put_all (put_exp_submodule_data be) l w
  end.

(** pf_block_writer.c:2097-2128 pf_put_exp_api_data. *)
Definition put_exp_api_data (be : bool) (x : xapi) (m : option xmod) (sub : option xsub) : writer :=
  put_u32 be (xa_num x) ;;
  match m with
  | Some m => put_u16 be 1 ;; put_exp_module_data be m sub
  | None => put_u16 be (u16 (Z.of_nat (xa_n x))) ;;
    fun w => do l <- upto (xa_n x) (xa_mods x); put_all (fun m => put_exp_module_data be m None) l w
  end.

(** The loops of pf_block_writer.c:2183-2214: the first element with a number among the first [n]. *)
Definition search {A} (num : A -> Z) (k : Z) (n : nat) (l : list A) : outcome (option A) :=
  do l <- upto n l; Ok (find (fun x => num x =? k) l).

(** pf_block_writer.c:2130-2240 pf_put_exp_ident_data.  ar is dereferenced without a test. *)
Definition put_exp_ident_data (be : bool) (vl : Z) (ar : option rar) (sc : scope) (a s t : Z) : writer := fun w =>
  do w1 <- put_block_header be bt_expected_ident 0 1 vl w;
  match ar with
  | None => Ub
  | Some r =>
    let i := r_exp r in
    do w2 <- match sc with
             | ArOf => (put_u16 be (u16 (Z.of_nat (xi_n i))) ;;
                 fun w => do l <- upto (xi_n i) (xi_apis i); put_all (fun x => put_exp_api_data be x None None) l w) w1
             | _ =>
               do x <- search xa_num a (xi_n i) (xi_apis i);
               do m <- match x with Some x => search xm_num s (xa_n x) (xa_mods x) | None => Ok None end;
               do e <- match sc, m with SubslotOf, Some m => search xs_num t (xm_n m) (xm_subs m) | _, _ => Ok None end;
               let found := match sc with
                            | SlotOf => match m with Some _ => true | None => false end
                            | SubslotOf => match e with Some _ => true | None => false end
                            | _ => false
                            end in
               if found then (put_u16 be 1 ;; match x with Some x => put_exp_api_data be x m e | None => fun _ => Ub end) w1
               else put_u16 be 0 w1
             end;
    put_block_len be (w_pos w) w2
  end.

(** * The indexes *)

(** pf_types.h:603-735. *)
Definition idx_sub_exp : Z := 32768.
Definition idx_sub_real : Z := 32769.
Definition idx_slot_exp : Z := 49152.
Definition idx_slot_real : Z := 49153.
Definition idx_ar_exp : Z := 57344.
Definition idx_ar_real : Z := 57345.
Definition idx_api_real : Z := 61440.
Definition idx_dev_api : Z := 63521.

(** The cases of pf_cmrdr.c:226-345 in pf_cmrdr_rm_read_ind, for the API, slot and subslot of the
    request; None: another index. *)
Definition read_ident (d : dev) (ar : option rar) (a s t idx : Z) : option writer :=
  if idx =? idx_sub_exp then Some (put_exp_ident_data true 1 ar SubslotOf a s t)
  else if idx =? idx_sub_real then Some (put_real_ident_data true 1 d SubslotOf None a s t)
  else if idx =? idx_slot_exp then Some (put_exp_ident_data true 1 ar SlotOf a s 0)
  else if idx =? idx_slot_real then Some (put_real_ident_data true 1 d SlotOf None a s 0)
  else if idx =? idx_ar_exp then Some (put_exp_ident_data true 1 ar ArOf 0 0 0)
  else if idx =? idx_ar_real then Some (put_real_ident_data true 1 d ArOf ar 0 0 0)
  else if idx =? idx_api_real then Some (put_real_ident_data true 1 d ApiOf None a 0 0)
  else if idx =? idx_dev_api then Some (put_real_ident_data true 0 d DeviceOf None 0 0 0)
  else None.
