(** Model of what an alarm frame is made of: the calls that report an alarm
    (src/common/pf_alarm.c 3106-3625), the summary of the diagnoses (1991-2053, 2850-2978)
    and the frame (1232-1560, 1694-1764, src/device/pf_block_writer.c 3382-3633). *)
From Coq Require Import List ZArith Arith Bool.
From Verif Require Import Base PpmModel BlockModel IdentModel DiffModel IdentReadModel DiagModel DiagReadModel.
Import ListNotations.
Local Open Scope Z_scope.

(** PNET_MAX_ALARM_PAYLOAD_DATA_SIZE and sizeof (pf_diag_item_t), pf_types.h:955-980; the
    latter grows with PNET_MAX_DIAG_MANUF_DATA_SIZE. *)
Record asizes := mkAsizes { z_payload : Z; z_item : Z }.
(** What is used of the device and of the connection: global_alarm_enable, alarm_enable,
    max_alarm_data_length, pull_module_alarm_allowed. *)
Record aconn := mkAconn { n_global : bool; n_enable : bool; n_max : Z; n_pull_module : bool }.

(** What a payload pointer points to: a diagnosis item or bytes. *)
Inductive pdata := PItem (i : ditem) | PBytes (l : list Z).

(** pf_types.h:1000-1018 pf_alarm_data_t as it is put into the queue, and the queue;
    None: the payload is all zero.  submodule_ident has 16 bits. *)
Record queued := mkQueued { q_high : bool; q_type : Z; q_api : Z; q_slot : Z; q_sub : Z; q_module : Z; q_submodule : Z;
  q_usi : Z; q_len : Z; q_data : option pdata }.

(** The memcpy of pf_alarm.c:3189; reading behind what the caller gave is Ub. *)
Definition copied (z : asizes) (len : Z) (p : pdata) : outcome pdata :=
  match p with
  | PItem i => if len <=? z_item z then Ok (PItem i) else Ub
  | PBytes l => if len <=? Z.of_nat (length l) then Ok (PBytes (firstn (Z.to_nat len) l)) else Ub
  end.

(** pf_alarm.c:3106-3202 pf_alarm_send_alarm up to the call of pf_alarm_send_queue_post
    (AlarmModel.v); None: -1. *)
Definition send_alarm (z : asizes) (c : aconn) (ty : Z) (high : bool) (a s t mid sid usi len : Z) (p : option pdata) : outcome (option queued) :=
  if negb (n_global c) || negb (n_enable c) then Ok None
  else if z_payload z <? len then Ok None
  else if n_max c <? len then Ok None
  else
    let q := mkQueued high (u16 ty) a s t mid (u16 sid) usi len in
    if 0 <? len then
      match p with
      | None => Ok None
      | Some p => do d <- copied z len p; Ok (Some (q (Some d)))
      end
    else Ok (Some (q None)).

(** pf_cmdev.c:276-289 pf_cmdev_get_module_ident and 291-307 pf_cmdev_get_submodule_ident. *)
Definition module_ident (d : dev) (a s : Z) : option Z := option_map rl_ident (get_slot_full d a s).
Definition subslot_full (d : dev) (a s t : Z) : option rsub := match get_slot_full d a s with Some y => get_sub y t | None => None end.
Definition submodule_ident (d : dev) (a s t : Z) : option Z := option_map rs_ident (subslot_full d a s t).
Definition with_idents (d : dev) (a s t : Z) (f : Z -> Z -> outcome (option queued)) : outcome (option queued) :=
  match module_ident d a s with
  | None => Ok None
  | Some m => match submodule_ident d a s t with None => Ok None | Some k => f m k end
  end.

(** pf_alarm.c:3206-3286 pf_alarm_send_process. *)
Definition send_process (z : asizes) (c : aconn) (d : dev) (a s t usi len : Z) (p : option (list Z)) : outcome (option queued) :=
  if usi_channel <=? usi then Ok None
  else with_idents d a s t (fun m k => send_alarm z c 2 true a s t m k usi len (option_map PBytes p)).

(** pf_types.h PF_WRT_ERROR_REMOTE_MISMATCH. *)
Definition remote_mismatch : Z := 32769.

(** pf_alarm.c:3288-3401 pf_alarm_send_diagnosis. *)
Definition send_diagnosis (z : asizes) (c : aconn) (d : dev) (a s t : Z) (i : ditem) : outcome (option queued) :=
  let ty := if (usi_channel <=? d_usi i) && (ch_err (d_std i) =? remote_mismatch) then 14 else 1 in
  with_idents d a s t (fun m k =>
    if d_usi i <? usi_channel then
      send_alarm z c ty false a s t m k (d_usi i) (Z.of_nat (length (d_data i))) (Some (PBytes (d_data i)))
    else send_alarm z c ty false a s t m k (d_usi i) (z_item z) (Some (PItem i))).

(** pf_alarm.c:3403-3473 pf_alarm_send_usi_diagnosis_disappears. *)
Definition send_gone (z : asizes) (c : aconn) (d : dev) (a s t usi : Z) : outcome (option queued) :=
  if usi <? usi_channel then with_idents d a s t (fun m k => send_alarm z c 12 false a s t m k usi 0 None) else AssertFail.

(** pf_alarm.c:3475-3514 pf_alarm_send_pull, 3516-3548 pf_alarm_send_plug, 3550-3582
    pf_alarm_send_plug_wrong, 3584-3616 pf_alarm_send_released.  Their result is not used. *)
Definition send_pull (z : asizes) (c : aconn) (a s t : Z) : outcome (option queued) :=
  send_alarm z c (if t =? 0 then (if n_pull_module c then 31 else 3) else 3) false a s t 0 0 0 0 None.
Definition send_plug (z : asizes) (c : aconn) (a s t m k : Z) : outcome (option queued) := send_alarm z c 4 false a s t m k 0 0 None.
Definition send_plug_wrong (z : asizes) (c : aconn) (a s t m k : Z) : outcome (option queued) := send_alarm z c 10 false a s t m k 0 0 None.
Definition send_released (z : asizes) (c : aconn) (a s t m k : Z) : outcome (option queued) := send_alarm z c 9 false a s t m k 0 0 None.

(** pnet_api.h pnet_alarm_spec_t with the maintenance status. *)
Record aspec := mkAspec { sp_channel : bool; sp_manuf : bool; sp_submod : bool; sp_ar : bool; sp_maint : Z }.

(** pf_alarm.c:2850-2978 pf_alarm_add_diag_item_to_summary. *)
Definition add_item (same : bool) (x : aspec) (i : ditem) : aspec :=
  if d_usi i <? usi_channel then mkAspec (sp_channel x) true true (sp_ar x || same) (sp_maint x)
  else
    let sd := d_std i in
    let appears := spec_get (ch_props sd) =? sp_appears in
    let fault := severity_is m_fault q_mask_fault sd in
    let m1 := Z.lor (sp_maint x) (Z.land (qualifier sd) (Z.lnot 7)) in
    let m2 := if severity_is m_required q_mask_required sd then Z.lor m1 1 else m1 in
    let m3 := if severity_is m_demanded q_mask_demanded sd then Z.lor m2 2 else m2 in
    mkAspec (sp_channel x || appears) (sp_manuf x) (sp_submod x || appears && fault) (sp_ar x || appears && fault && same) m3.

(** pf_alarm.c:1991-2053 pf_alarm_get_diag_summary without the "current" item, which is
    never given.  [dl]: the items of a subslot. *)
Definition diag_summary (d : dev) (dl : dlists) (ar : nat) (a s t : Z) : aspec :=
  match subslot_full d a s t with
  | None => mkAspec false false false false 0
  | Some y =>
    let same := owned y && match rs_owner y with Some o => Nat.eqb o ar | None => false end in
    fold_left (add_item same) (dl a s t) (mkAspec false false false false 0)
  end.

(** pf_types.h pf_apmx_t: the fields that get into frames. *)
Record aend := mkAend { e_da : list Z; e_dst : Z; e_src : Z; e_send : Z; e_exp_o : Z; e_send_o : Z; e_vlan : Z; e_notify : Z; e_ack : Z; e_id : Z }.
(** pf_alarm.c:1018-1037, in pf_alarm_apmx_activate: what depends on the priority. *)
Definition aend_for (high : bool) (da : list Z) (dst src send exp_o send_o : Z) : aend :=
  if high then mkAend da dst src send exp_o send_o 6 1 32769 64513 else mkAend da dst src send exp_o send_o 5 2 32770 65025.

(** pf_block_writer.c:3446-3479 pf_put_maint_status. *)
Definition put_maint_status (be : bool) (v : Z) : writer :=
  put_u16 be 33024 ;; put_block be 3840 (put_byte 0 ;; put_byte 0 ;; put_u32 be v).

(** The switch of pf_block_writer.c:3575-3620, in pf_put_alarm_block.  A diagnosis item
    behind a zero payload is one with USI 0 and no data; taking bytes for an item is Ub. *)
Definition put_payload (be : bool) (usi len maint : Z) (p : option pdata) : writer :=
  if usi =? 0 then wskip
  else if usi =? 33024 then wskip
  else if (usi =? usi_channel) || (usi =? usi_extended) || (usi =? usi_qualified) then
    (if maint =? 0 then wskip else put_maint_status be maint) ;;
    match p with
    | Some (PItem i) => put_diag_item be i true
    | Some (PBytes _) => fun _ => Ub
    | None => put_diag_item be item0 true
    end
  else
    put_u16 be usi ;;
    (if 0 <? len then match p with Some (PBytes l) => put_mem (firstn (Z.to_nat len) l) | _ => fun _ => Ub end else wskip).

Definition bz (b : bool) : Z := if b then 1 else 0.
(** pf_alarm.c:2294-2341 pf_alarm_send_internal: what is written into the alarm taken from
    the queue.  [n]: the sequence number. *)
Definition stamped (q : queued) (x : aspec) (n : Z) : adata :=
  mkAdata (q_type q) (q_api q) (q_slot q) (q_sub q) (q_module q) (q_submodule q) n
    (bz (sp_channel x)) (bz (sp_manuf x)) (bz (sp_submod x)) (bz (sp_ar x)).

(** VarPartLen: a field for the length in front of what is written. *)
Definition put_var (be : bool) (f : writer) : writer := fun w =>
  do w1 <- (put_u16 be 0 ;; f) w;
  do w2 <- put_u16 be (u16 (w_pos w1 - (w_pos w + 2))) (mkWr (w_buf w1) (w_len w1) (w_pos w));
  Ok (mkWr (w_buf w2) (w_len w2) (w_pos w1)).

(** pf_alarm.c:1232-1467 pf_alarm_apms_a_data_req: the frame; [sa] is the address of the
    device, [var] writes the variable part.  The memcpy of the source address is written as
    pf_put_mem. *)
Definition put_frame (sa : list Z) (e : aend) (fx : afixed) (var : writer) : writer :=
  put_mem (e_da e) ;; put_mem sa ;; put_u16 true 33024 ;; put_u16 true (u16 (Z.shiftl (Z.land (e_vlan e) 7) 13)) ;;
  put_u16 true 34962 ;; put_u16 true (e_id e) ;; put_alarm_fixed true fx ;; put_var true var.
Definition sent (b : list Z) (f : writer) : outcome (list Z) :=
  do w <- f (mkWr (Some b) frame_buffer_size 0);
  match w_buf w with Some b' => Ok (firstn (Z.to_nat (w_pos w)) b') | None => Ub end.

(** pf_alarm.c:1510-1518, in pf_alarm_apms_apms_a_data_req. *)
Definition data_part (e : aend) : afixed := mkAfixed (e_dst e) (e_src e) 1 1 1 1 (e_send e) (e_exp_o e).
(** Alarm notification: pf_alarm.c:2294-2341 pf_alarm_send_internal and 1491-1556
    pf_alarm_apms_apms_a_data_req. *)
Definition notification (sa : list Z) (d : dev) (dl : dlists) (ar : nat) (e : aend) (n : Z) (q : queued) : writer :=
  let x := diag_summary d dl ar (q_api q) (q_slot q) (q_sub q) in
  put_frame sa e (data_part e)
    (put_alarm_notification true (e_notify e) (stamped q x n) (put_payload true (q_usi q) (q_len q) (sp_maint x) (q_data q))).
(** pf_alarm.c:3004-3057 pf_alarm_alpmr_alarm_ack; [al]: the alarm of the argument. *)
Definition acknowledge (sa : list Z) (e : aend) (al : adata) (st : pnio) : writer :=
  put_frame sa e (data_part e) (put_alarm_ack true (e_ack e) al st).
(** pf_alarm.c:1582-1620, in pf_alarm_apmx_close. *)
Definition closing (sa : list Z) (e : aend) (code : Z) : writer :=
  put_frame sa e (mkAfixed (e_dst e) (e_src e) 4 1 1 0 (e_send e) (e_exp_o e)) (put_pnet_status true (mkPnio 207 129 253 code)).
(** pf_alarm.c:1694-1721 pf_alarm_apmr_send_ack and 1736-1763 pf_alarm_apmr_send_nack. *)
Definition transport (sa : list Z) (e : aend) (ok : bool) : writer :=
  put_frame sa e (mkAfixed (e_dst e) (e_src e) (if ok then 3 else 2) 1 1 0 (e_send_o e) (e_exp_o e)) wskip.
