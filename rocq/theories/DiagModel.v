(** Model of the diagnosis store: src/device/pf_diag.c, the pool of items and
    the sub-slot cells of src/device/pf_cmdev.c, and the summary of a
    sub-module (src/common/pf_alarm.c 2850-2978).

    Simplifications:
    - PF_DIAG_IX_NULL (0xFFFF) is None; PNET_MAX_DIAG_ITEMS is at most 65534
      (pf_diag.c 50-52), so no index equals it.
    - The union fmt (pf_types.h, pf_diag_item_t) is modelled by two separate
      fields; the code reads the member that belongs to the USI.
    - Each call is atomic.  pf_diag_remove releases the lock between unlinking
      and freeing the item (pf_diag.c 840).
    - The cells of all sub-slots form one list; a plug takes any unused one.
    - Whether an alarm can be sent is an input (it only affects the result
      code). *)

From Coq Require Import List Arith Bool ZArith.
From Verif Require Import Base.
Import ListNotations.
Set Implicit Arguments.
Open Scope Z_scope.

(** Bit fields, pf_types.h 109-180. *)
Definition getf (mask pos x : Z) : Z := Z.shiftr (Z.land x mask) pos.
Definition setf (mask pos v x : Z) : Z :=
  u16 (Z.lor (Z.land x (Z.lnot mask)) (Z.shiftl v pos)).
Definition type_set := setf 255 0.
Definition acc_get := getf 256 8.
Definition acc_set := setf 256 8.
Definition maint_get := getf 1536 9.
Definition maint_set := setf 1536 9.
Definition spec_get := getf 6144 11.
Definition spec_set := setf 6144 11.
Definition dir_get := getf 57344 13.
Definition dir_set := setf 57344 13.

(** pnet_diag_ch_prop_maint_values_t, pnet_api.h; PF_DIAG_CH_PROP_SPEC_*,
    pf_types.h 160-166. *)
Definition m_fault := 0.
Definition m_required := 1.
Definition m_demanded := 2.
Definition m_qualified := 3.
Definition sp_all_disappears := 0.
Definition sp_appears := 1.
Definition sp_disappears := 2.
Definition sp_dis_others := 3.
(** PF_USI_*, pf_types.h 2249-2252; PNET_CHANNEL_WHOLE_SUBMODULE,
    pnet_api.h 1885; PF_DIAG_QUALIFIER_MASK_*, pf_types.h 101-107. *)
Definition usi_channel := 32768.
Definition usi_multiple := 32769.
Definition usi_extended := 32770.
Definition usi_qualified := 32771.
Definition whole_submodule := 32768.
Definition q_mask_fault := 4160749568.
Definition q_mask_demanded := 134086656.
Definition q_mask_required := 130944.

(** pf_diag_std_t, pf_types.h. *)
Record std := mkStd {
  ch_nbr : Z; ch_props : Z; ch_err : Z; ext_err : Z; add_value : Z; qualifier : Z }.
(** pf_diag_item_t, pf_types.h; the length of the manufacturer data is the
    length of the list. *)
Record ditem := mkItem {
  d_use : bool; d_next : option nat; d_usi : Z; d_std : std; d_data : list Z }.
Definition std0 := mkStd 0 0 0 0 0 0.
Definition item0 := mkItem false None 0 std0 [].

Definition key : Type := (Z * Z * Z)%type.
Definition key_eqb (a b : key) : bool :=
  let '(a1, a2, a3) := a in let '(b1, b2, b3) := b in
  (a1 =? b1) && (a2 =? b2) && (a3 =? b3).

(** pf_submod_diag_summary_t. *)
Record summary := mkSum { su_fault : bool; su_req : bool; su_dem : bool }.
Definition sum0 := mkSum false false false.

(** pf_subslot_t.  c_owner: the connection that owns the sub-module, if the
    ownership state is IOC or IOS. *)
Record cell := mkCell {
  c_use : bool; c_key : key; c_list : option nat; c_owner : option nat;
  c_sum : summary }.

Record dstate := mkD {
  items : nat -> ditem; freel : option nat; cells : list cell }.

(** DAlarm: pf_alarm_send_diagnosis; DGone: pf_alarm_send_usi_diagnosis_
    disappears; DIndicator: pf_ppm_set_problem_indicator. *)
Inductive dobs :=
| DAlarm (ar : nat) (k : key) (it : ditem)
| DGone (ar : nat) (k : key) (usi : Z)
| DIndicator (ar : nat) (b : bool).

(** pnet_diag_source_t, pnet_api.h. *)
Record source := mkSrc { s_key : key; s_ch : Z; s_group : Z; s_dir : Z }.

Definition with_next (n : option nat) (i : ditem) : ditem :=
  mkItem (d_use i) n (d_usi i) (d_std i) (d_data i).

Section Diag.
(** PNET_MAX_DIAG_ITEMS and PNET_MAX_DIAG_MANUF_DATA_SIZE. *)
Variable max_items : nat.
Variable max_manuf : Z.

(** The items of a list in order; None if the list does not end. *)
Fixpoint walk (fuel : nat) (its : nat -> ditem) (ix : option nat) : option (list nat) :=
  match ix with
  | None => Some []
  | Some i =>
      match fuel with
      | O => None
      | S f => match walk f its (d_next (its i)) with
               | Some l => Some (i :: l)
               | None => None
               end
      end
  end.
Definition walk_items (its : nat -> ditem) (ix : option nat) : option (list ditem) :=
  match walk (S max_items) its ix with
  | Some l => Some (map its l)
  | None => None
  end.

(** pf_diag_update_station_problem_indicator, pf_diag.c 73-106. *)
Definition is_problem (l : list ditem) : bool :=
  existsb (fun i => d_use i && ((d_usi i <? usi_channel)
                                || (maint_get (ch_props (d_std i)) =? m_fault))) l.

(** pf_alarm_add_diag_item_to_summary, pf_alarm.c 2850-2978, and
    pf_diag_update_submodule_state, pf_diag.c 115-165: the alarm specifier
    and the maintenance status are accumulated over the list. *)
Definition severity_is (sev mask : Z) (s : std) : bool :=
  let m := maint_get (ch_props s) in
  if m =? sev then true
  else if m =? m_qualified then 0 <? Z.land (Z.land (qualifier s) (Z.lnot 7)) mask
  else false.
Definition add_summary (i : ditem) (s : summary) : summary :=
  if d_usi i <? usi_channel then mkSum true (su_req s) (su_dem s)
  else
    mkSum (su_fault s || ((spec_get (ch_props (d_std i)) =? sp_appears)
                          && severity_is m_fault q_mask_fault (d_std i)))
          (su_req s || severity_is m_required q_mask_required (d_std i))
          (su_dem s || severity_is m_demanded q_mask_demanded (d_std i)).
Definition summarize (l : list ditem) : summary :=
  fold_left (fun s i => if d_use i then add_summary i s else s) l sum0.

(** The comparison in pf_diag_find_entry, pf_diag.c 230-262. *)
Definition matches (src : source) (err ext usi : Z) (i : ditem) : bool :=
  if usi_channel <=? d_usi i then
    (ch_nbr (d_std i) =? s_ch src) && (ch_err (d_std i) =? err)
    && (ext_err (d_std i) =? ext)
    && (acc_get (ch_props (d_std i)) =? s_group src)
    && (dir_get (ch_props (d_std i)) =? s_dir src)
  else d_usi i =? usi.

(** The loop of pf_diag_find_entry, pf_diag.c 215-281: finds and unlinks an
    item.  Result: items, head of the list, index found; None if the loop does
    not end. *)
Fixpoint find_loop (fuel : nat) (m : ditem -> bool) (its : nat -> ditem)
    (head prev ix : option nat)
  : option ((nat -> ditem) * option nat * option nat) :=
  match ix with
  | None => Some (its, head, None)
  | Some i =>
      match fuel with
      | O => None
      | S f =>
          if m (its i) then
            match prev with
            | Some p => Some (upd its p (with_next (d_next (its i)) (its p)), head, Some i)
            | None => Some (its, d_next (its i), Some i)
            end
          else find_loop f m its head (Some i) (d_next (its i))
      end
  end.

(** pf_cmdev_new_diag, pf_cmdev.c 331-352. *)
Definition new_diag (its : nat -> ditem) (fr : option nat)
  : option (nat * (nat -> ditem) * option nat) :=
  match fr with
  | None => None
  | Some i => Some (i, upd its i (mkItem true (Some 0%nat) 0 std0 []), d_next (its i))
  end.

(** pf_cmdev_free_diag, pf_cmdev.c 354-366. *)
Definition free_diag (i : nat) (its : nat -> ditem) (fr : option nat)
  : (nat -> ditem) * option nat :=
  (upd its i (mkItem false fr (d_usi (its i)) (d_std (its i)) (d_data (its i))), Some i).

Fixpoint set_cell (c : nat) (x : cell) (l : list cell) : list cell :=
  match l, c with
  | [], _ => []
  | _ :: r, O => x :: r
  | y :: r, S c' => y :: set_cell c' x r
  end.
Fixpoint find_cell (k : key) (l : list cell) : option nat :=
  match l with
  | [] => None
  | x :: r => if c_use x && key_eqb (c_key x) k then Some O
              else match find_cell k r with Some j => Some (S j) | None => None end
  end.
Definition cell_at (c : nat) (s : dstate) : cell :=
  nth c (cells s) (mkCell false (0, 0, 0) None None sum0).

Definition with_list (o : option nat) (c : cell) : cell :=
  mkCell (c_use c) (c_key c) o (c_owner c) (c_sum c).
Definition with_sum (s : summary) (c : cell) : cell :=
  mkCell (c_use c) (c_key c) (c_list c) (c_owner c) s.

(** The checks at the start of pf_diag_add, pf_diag.c 306-408. *)
Definition add_valid (src : source) (sev err ext addv qual usi len : Z)
    (data : option (list Z)) : bool :=
  negb ((usi_qualified <? usi) || (usi =? usi_multiple))
  && negb ((usi <? usi_channel) && negb (err =? 0))
  && negb ((usi <=? usi_channel) && negb (ext =? 0))
  && negb ((usi <=? usi_channel) && negb (addv =? 0))
  && negb (negb (usi =? usi_qualified) && negb (qual =? 0))
  && negb (negb (usi =? usi_qualified) && (sev =? m_qualified))
  && negb (negb (qual =? 0) && negb (sev =? m_qualified))
  && negb ((usi_channel <=? usi)
           && (match data with Some _ => true | None => false end || negb (len =? 0)))
  && negb ((0 <? len) && match data with Some _ => false | None => true end)
  && negb (whole_submodule <? s_ch src)
  && negb (max_manuf <? len).

(** The checks of pf_diag_update, pf_diag.c 603-664. *)
Definition update_valid (src : source) (err ext addv usi len : Z)
    (data : option (list Z)) : bool :=
  negb ((usi_qualified <? usi) || (usi =? usi_multiple))
  && negb ((usi <? usi_channel) && negb (err =? 0))
  && negb ((usi <=? usi_channel) && negb (ext =? 0))
  && negb ((usi <=? usi_channel) && negb (addv =? 0))
  && negb ((usi_channel <=? usi)
           && (match data with Some _ => true | None => false end || negb (len =? 0)))
  && negb ((0 <? len) && match data with Some _ => false | None => true end)
  && negb (max_manuf <? len)
  && negb (whole_submodule <? s_ch src).

(** The checks of pf_diag_remove, pf_diag.c 789-819. *)
Definition remove_valid (src : source) (err ext usi : Z) : bool :=
  negb ((usi_qualified <? usi) || (usi =? usi_multiple))
  && negb ((usi <? usi_channel) && negb (err =? 0))
  && negb ((usi <=? usi_channel) && negb (ext =? 0))
  && negb (whole_submodule <? s_ch src).

Definition copied (len : Z) (data : option (list Z)) : list Z :=
  match data with
  | Some d => firstn (Z.to_nat len) d
  | None => []
  end.

(** The new contents of an item, pf_diag.c 448-507. *)
Definition new_props (src : source) (bits sev : Z) : Z :=
  spec_set sp_appears
    (dir_set (s_dir src)
       (maint_set sev
          (acc_set (if s_group src =? 1 then 1 else 0) (type_set bits 0)))).
Definition fill_item (src : source) (bits sev err ext addv qual usi len : Z)
    (data : option (list Z)) (old : ditem) : ditem :=
  if usi <? usi_channel
  then mkItem (d_use old) (d_next old) usi (d_std old) (copied len data)
  else mkItem (d_use old) (d_next old) usi
         (mkStd (s_ch src) (new_props src bits sev) err ext addv qual) (d_data old).

Definition set_spec (sp : Z) (i : ditem) : ditem :=
  mkItem (d_use i) (d_next i) (d_usi i)
    (mkStd (ch_nbr (d_std i)) (spec_set sp (ch_props (d_std i))) (ch_err (d_std i))
       (ext_err (d_std i)) (add_value (d_std i)) (qualifier (d_std i))) (d_data i).

Definition result : Type := option (dstate * Z * list dobs).

(** Linking, summary, alarms and problem indicator: pf_diag.c 509-558 and
    692-738.  disappear: an old item for which a disappear alarm follows. *)
Definition finish (c i : nat) (k : key) (its : nat -> ditem) (fr : option nat)
    (cs : list cell) (head : option nat) (cl : cell) (disappear : option ditem)
    (ok1 ok2 : bool) : result :=
  let its := upd its i (with_next head (its i)) in
  match walk_items its (Some i) with
  | None => None
  | Some l =>
      let cl' := with_sum (summarize l) (with_list (Some i) cl) in
      let s := mkD its fr (set_cell c cl' cs) in
      match c_owner cl with
      | None => Some (s, -1, [])
      | Some ar =>
          match disappear with
          | Some old =>
              Some (s, if ok2 then 0 else -1,
                    [DAlarm ar k (its i); DIndicator ar (is_problem l);
                     DAlarm ar k (set_spec sp_dis_others old)])
          | None =>
              Some (s, if ok1 then 0 else -1,
                    [DAlarm ar k (its i); DIndicator ar (is_problem l)])
          end
      end
  end.

Definition if_std (i : ditem) : option ditem :=
  if usi_channel <=? d_usi i then Some i else None.

(** pf_diag_add, pf_diag.c 283-583. *)
Definition diag_add (src : source) (bits sev err ext addv qual usi len : Z)
    (data : option (list Z)) (ok1 ok2 : bool) (s : dstate) : result :=
  let qual := Z.land qual (Z.lnot 7) in
  if negb (add_valid src sev err ext addv qual usi len data) then Some (s, -1, [])
  else
    match find_cell (s_key src) (cells s) with
    | None => Some (s, -1, [])
    | Some c =>
        let cl := cell_at c s in
        match find_loop (S max_items) (matches src err ext usi) (items s)
                (c_list cl) None (c_list cl) with
        | None => None
        | Some (its, head, Some i) =>
            let its' := upd its i (fill_item src bits sev err ext addv qual usi len data (its i)) in
            finish c i (s_key src) its' (freel s) (cells s) head cl (if_std (its i)) ok1 ok2
        | Some (its, head, None) =>
            match new_diag its (freel s) with
            | None => Some (s, -1, [])
            | Some (i, its, fr) =>
                let its' := upd its i (fill_item src bits sev err ext addv qual usi len data (its i)) in
                finish c i (s_key src) its' fr (cells s) head cl None ok1 ok2
            end
        end
    end.

(** The new contents in pf_diag_update, pf_diag.c 683-700. *)
Definition refresh_item (addv len : Z) (data : option (list Z)) (i : ditem) : ditem :=
  if d_usi i <? usi_channel
  then mkItem (d_use i) (d_next i) (d_usi i) (d_std i) (copied len data)
  else
    let i := set_spec sp_appears i in
    mkItem (d_use i) (d_next i) (d_usi i)
      (mkStd (ch_nbr (d_std i)) (ch_props (d_std i)) (ch_err (d_std i))
         (ext_err (d_std i)) addv (qualifier (d_std i))) (d_data i).

(** pf_diag_update, pf_diag.c 585-773. *)
Definition diag_update (src : source) (err ext addv usi len : Z)
    (data : option (list Z)) (ok1 ok2 : bool) (s : dstate) : result :=
  if negb (update_valid src err ext addv usi len data) then Some (s, -1, [])
  else
    match find_cell (s_key src) (cells s) with
    | None => Some (s, -1, [])
    | Some c =>
        let cl := cell_at c s in
        match find_loop (S max_items) (matches src err ext usi) (items s)
                (c_list cl) None (c_list cl) with
        | None => None
        | Some (its, head, Some i) =>
            let its' := upd its i (refresh_item addv len data (its i)) in
            finish c i (s_key src) its' (freel s) (cells s) head cl (if_std (its i)) ok1 ok2
        | Some (its, head, None) => Some (s, -1, [])
        end
    end.

(** The item as it is announced by pf_diag_remove, pf_diag.c 848-885. *)
Definition gone_item (last : bool) (i : ditem) : ditem :=
  if last then
    let i := mkItem (d_use i) (d_next i) usi_extended
               (mkStd (ch_nbr (d_std i)) (maint_set m_fault (ch_props (d_std i)))
                  (ch_err (d_std i)) (ext_err (d_std i)) (add_value (d_std i))
                  (qualifier (d_std i))) (d_data i) in
    set_spec sp_all_disappears i
  else if usi_channel <=? d_usi i then set_spec sp_disappears i
  else i.

(** pf_diag_remove, pf_diag.c 775-935. *)
Definition diag_remove (src : source) (err ext usi : Z) (ok : bool) (s : dstate) : result :=
  if negb (remove_valid src err ext usi) then Some (s, -1, [])
  else
    match find_cell (s_key src) (cells s) with
    | None => Some (s, -1, [])
    | Some c =>
        let cl := cell_at c s in
        match find_loop (S max_items) (matches src err ext usi) (items s)
                (c_list cl) None (c_list cl) with
        | None => None
        | Some (its, head, None) => Some (s, -1, [])
        | Some (its, head, Some i) =>
            let last := match head with None => true | Some _ => false end in
            let its1 := match c_owner cl with
                        | Some _ => upd its i (gone_item last (its i))
                        | None => its
                        end in
            match walk_items its1 head with
            | None => None
            | Some l =>
                let cl' := with_sum (summarize l) (with_list head cl) in
                let '(its2, fr) := free_diag i its1 (freel s) in
                let s' := mkD its2 fr (set_cell c cl' (cells s)) in
                match c_owner cl with
                | None => Some (s', -1, [])
                | Some ar =>
                    match walk_items its2 head with
                    | None => None
                    | Some l2 =>
                        Some (s', if ok then 0 else -1,
                              [(if usi_channel <=? usi then DAlarm ar (s_key src) (its1 i)
                                else DGone ar (s_key src) usi);
                               DIndicator ar (is_problem l2)])
                    end
                end
            end
        end
    end.

(** Calls.  CPlug: pf_cmdev_new_subslot (pf_cmdev.c 529-570) takes cell c;
    CPull: pf_cmdev_pull_submodule (629-681); COwner: ownership of the
    sub-module changes (CmModel.v). *)
Inductive call :=
| CAdd (src : source) (bits sev err ext addv qual usi len : Z) (data : option (list Z))
       (ok1 ok2 : bool)
| CUpdate (src : source) (err ext addv usi len : Z) (data : option (list Z))
       (ok1 ok2 : bool)
| CRemove (src : source) (err ext usi : Z) (ok : bool)
| CPlug (c : nat) (k : key)
| CPull (k : key)
| COwner (c : nat) (o : option nat).

Definition dstep (x : call) (s : dstate) : result :=
  match x with
  | CAdd src bits sev err ext addv qual usi len data ok1 ok2 =>
      diag_add src bits sev err ext addv qual usi len data ok1 ok2 s
  | CUpdate src err ext addv usi len data ok1 ok2 =>
      diag_update src err ext addv usi len data ok1 ok2 s
  | CRemove src err ext usi ok => diag_remove src err ext usi ok s
  | CPlug c k =>
      match find_cell k (cells s) with
      | Some _ => Some (s, -1, [])
      | None =>
          if (c <? length (cells s))%nat && negb (c_use (cell_at c s))
          then Some (mkD (items s) (freel s)
                       (set_cell c (mkCell true k None None sum0) (cells s)), 0, [])
          else Some (s, -1, [])
      end
  | CPull k =>
      match find_cell k (cells s) with
      | None => Some (s, -1, [])
      | Some c =>
          let x := cell_at c s in
          Some (mkD (items s) (freel s)
                  (set_cell c (mkCell false (c_key x) (c_list x) (c_owner x) (c_sum x))
                     (cells s)), 0, [])
      end
  | COwner c o =>
      let x := cell_at c s in
      Some (mkD (items s) (freel s)
              (set_cell c (mkCell (c_use x) (c_key x) (c_list x) o (c_sum x)) (cells s)), 0, [])
  end.

(** A history; None if a call does not return.  Observations newest first. *)
Fixpoint drun (xs : list call) (s : dstate) (tr : list dobs)
  : option (dstate * list dobs) :=
  match xs with
  | [] => Some (s, tr)
  | x :: r => match dstep x s with
              | None => None
              | Some (s', _, os) => drun r s' (rev os ++ tr)
              end
  end.

(** pf_cmdev_init, pf_cmdev.c 1311-1337, with n sub-slot cells. *)
Definition init_items (i : nat) : ditem :=
  mkItem false (if (S i <? max_items)%nat then Some (S i) else None) 0 std0 [].
Definition dinit (ncells : nat) : dstate :=
  mkD init_items (Some 0%nat)
      (repeat (mkCell false (0, 0, 0) None None sum0) ncells).

(** pf_cmdev_get_next_diagnosis_usi, pf_cmdev.c 368-403. *)
Definition next_usi (l : list ditem) (low : Z) : option Z :=
  let r := fold_left (fun r i => if (low <? d_usi i) && (d_usi i <? r) then d_usi i else r)
             l 65535 in
  if r =? 65535 then None else Some r.

(** The loop of pf_put_diag_subslot, pf_block_writer.c 2996-3031: the USIs for
    which a block is written; the items written into the block for one USI
    with the filter "all" (2860-2970). *)
Fixpoint listed_usis (fuel : nat) (l : list ditem) (low : Z) : option (list Z) :=
  match next_usi l low with
  | None => Some []
  | Some u =>
      match fuel with
      | O => None
      | S f => match listed_usis f l u with
               | Some r => Some (u :: r)
               | None => None
               end
      end
  end.
Definition block_items (l : list ditem) (u : Z) : list ditem :=
  filter (fun i => d_usi i =? u) l.
End Diag.
