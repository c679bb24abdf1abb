(** Model of the station settings: src/device/pf_cmina.c.

    Simplifications:
    - The DNS addresses of the full IP suite are left out (they are zero and no
      request changes them, see DcpModel.v); so is DHCP, which is not supported.
    - The connections are represented by the number of those in use; an aborted
      connection is no longer in use.
    - The file with the settings is an option (see FileModel.v for the files);
      the background job that writes it is an event of its own.
    - Strings for the log are left out. *)
From Coq Require Import List ZArith Arith Bool.
From Verif Require Import Base.
Import ListNotations.
Set Implicit Arguments.
Local Open Scope Z_scope.

(** ** Validation *)

(** ~x for a uint32_t. *)
Definition not32 (x : Z) : Z := u32 (Z.lnot x).

(** pf_cmina_is_netmask_valid, pf_cmina.c 1745-1755. *)
Definition netmask_valid (m : Z) : bool := Z.land m (Z.shiftr (not32 m) 1) =? 0.

(** pf_cmina_is_ipaddress_valid, pf_cmina.c 1694-1732. *)
Definition ipaddress_valid (m ip : Z) : bool :=
  let host := Z.land ip (not32 m) in
  if (m =? 0) && (ip =? 0) then true
  else if negb (netmask_valid m) then false
  else if (host =? 0) || (host =? not32 m) then false
  else if ip <=? 16777215 then false
  else if (2130706432 <=? ip) && (ip <=? 2147483647) then false
  else if (3758096384 <=? ip) && (ip <=? 4026531839) then false
  else if (4026531840 <=? ip) && (ip <=? 4294967295) then false
  else true.

(** pf_cmina_is_gateway_valid, pf_cmina.c 1769-1779. *)
Definition gateway_valid (ip m gw : Z) : bool :=
  negb (negb (gw =? 0) && negb (Z.land ip m =? Z.land gw m)).

(** pf_ip_suite_t, pf_types.h 819-825. *)
Record suite := mkSuite { ip_addr : Z; ip_mask : Z; ip_gateway : Z }.
Definition suite0 : suite := mkSuite 0 0 0.
Definition suite_eqb (a b : suite) : bool :=
  (ip_addr a =? ip_addr b) && (ip_mask a =? ip_mask b) && (ip_gateway a =? ip_gateway b).

(** pf_cmina_is_ipsuite_valid, pf_cmina.c 1637-1656; the full suite,
    1668-1680, adds nothing. *)
Definition ipsuite_valid (s : suite) : bool :=
  netmask_valid (ip_mask s) && ipaddress_valid (ip_mask s) (ip_addr s)
  && gateway_valid (ip_addr s) (ip_mask s) (ip_gateway s).

(** isdigit and islower of the C locale. *)
Definition isdigit (c : Z) : bool := (48 <=? c) && (c <=? 57).
Definition islower (c : Z) : bool := (97 <=? c) && (c <=? 122).
Definition dot : Z := 46.
Definition hyphen : Z := 45.

(** "port-" *)
Definition port_prefix : list Z := [112; 111; 114; 116; 45].
Definition list_eqb (a b : list Z) : bool := if list_eq_dec Z.eq_dec a b then true else false.

(** The second loop of pf_cmina_is_stationname_valid, pf_cmina.c 1571-1610, from
    the rest [s] of the name on; the result is None for return false, otherwise
    the final values of prev, n_labels and n_non_digit. *)
Fixpoint name_loop (s : list Z) (label_offset prev n_labels n_non_digit : Z)
  : option (Z * Z * Z) :=
  match s with
  | [] => Some (prev, n_labels, n_non_digit)
  | c :: r =>
      if c =? dot then
        if prev =? hyphen then None else name_loop r 0 c (n_labels + 1) n_non_digit
      else if negb (islower c || isdigit c || (c =? hyphen)) then None
      else if (label_offset =? 0) && (c =? hyphen) then None
      else if 63 <=? label_offset then None
      else name_loop r (label_offset + 1) c n_labels
             (if isdigit c then n_non_digit else n_non_digit + 1)
  end.

(** pf_cmina_is_stationname_valid, pf_cmina.c 1520-1625, for a name of length len
    (uint16_t).  Simplification: the comparison with "port-" may read behind a
    name shorter than five bytes; the result matters only for the lengths 8 and
    14. *)
Definition stationname_valid (s : list Z) : bool :=
  match s with
  | [] => true
  | c0 :: _ =>
      if (c0 =? hyphen) || (241 <=? Z.of_nat (length s)) then false
      else if list_eqb (firstn 5 s) port_prefix
              && ((length s =? 8)%nat || (length s =? 14)%nat)
              && forallb (fun c => isdigit c || (c =? hyphen)) (skipn 5 s)
      then false
      else
        match name_loop s 0 97 1 0 with
        | None => false
        | Some (prev, n_labels, n_non_digit) =>
            if (n_labels =? 4) && (n_non_digit =? 0) then false
            else if prev =? hyphen then false
            else true
        end
  end.

(** ** State *)

(** strlen and the bytes before the terminator. *)
Fixpoint cstr (a : list Z) : list Z :=
  match a with
  | [] => []
  | c :: r => if c =? 0 then [] else c :: cstr r
  end.
(** sizeof station_name. *)
Definition name_size : nat := 241.
Definition no_name : list Z := repeat 0 name_size.

(** strncpy of [v] with the length of [v] to the start of array [a], followed by
    a terminator. *)
Definition put_name (v a : list Z) : list Z :=
  let w := cstr v in
  w ++ repeat 0 (length v - length w) ++ [0] ++ skipn (S (length v)) a.
(** strcpy. *)
Definition copy_name (v a : list Z) : list Z :=
  let w := cstr v in w ++ [0] ++ skipn (S (length w)) a.
(** memcpy of an array of the size of a station name, whose last byte is then set
    to 0. *)
Definition terminate (a : list Z) : list Z := firstn (name_size - 1) a ++ [0].

(** The part of pf_cmina_dcp_ase_t (pf_types.h 1160-1196) that changes. *)
Record ase := mkAse { a_name : list Z; a_suite : suite }.
Definition ase0 : ase := mkAse no_name suite0.

(** The configuration by the user, pnet_cfg_t, and the address of the
    interface. *)
Record cfg := mkCfg {
  k_hello : bool;                    (* send_hello *)
  k_dhcp : bool;                     (* dhcp_enable *)
  k_suite : suite; k_name : list Z;
  k_mac : list Z; k_product : list Z; k_device : list Z; k_oem : list Z }.

Inductive cstate := Setup | SetName | SetIp | WConnect.

(** Effects.  CSetIp: pnal_set_ip_suite (suite, name, permanent); CAbort: so many
    connections are aborted with an error code; CResetInd: reset call-back;
    CJob: the job that saves the settings is started; CHello: a HELLO message
    with name and suite is sent; CClearIm, CClearPorts: I&M data and port
    settings are cleared. *)
Inductive cobs :=
| CSetIp (s : suite) (name : list Z) (permanent : bool)
| CAbort (n : nat) (code : Z) | CResetInd (app : bool) (mode : Z)
| CJob | CHello (name : list Z) (s : suite) | CClearIm | CClearPorts.

Record cst := mkCst {
  cur : ase;                         (* cmina_current_dcp_ase *)
  nv : ase;                          (* cmina_nonvolatile_dcp_ase *)
  cs : cstate; commit : bool;        (* cmina_commit_ip_suite *)
  hellos : nat; hello_timer : bool;
  file : option ase;
  conns : nat;
  ctr : list cobs }.                 (* newest first *)

Definition cemit (o : cobs) (s : cst) : cst :=
  mkCst (cur s) (nv s) (cs s) (commit s) (hellos s) (hello_timer s) (file s) (conns s) (o :: ctr s).
Definition with_cur (v : ase) (s : cst) : cst :=
  mkCst v (nv s) (cs s) (commit s) (hellos s) (hello_timer s) (file s) (conns s) (ctr s).
Definition with_nv (v : ase) (s : cst) : cst :=
  mkCst (cur s) v (cs s) (commit s) (hellos s) (hello_timer s) (file s) (conns s) (ctr s).
Definition with_cs (v : cstate) (s : cst) : cst :=
  mkCst (cur s) (nv s) v (commit s) (hellos s) (hello_timer s) (file s) (conns s) (ctr s).
Definition with_commit (v : bool) (s : cst) : cst :=
  mkCst (cur s) (nv s) (cs s) v (hellos s) (hello_timer s) (file s) (conns s) (ctr s).
Definition with_hello (n : nat) (t : bool) (s : cst) : cst :=
  mkCst (cur s) (nv s) (cs s) (commit s) n t (file s) (conns s) (ctr s).
Definition with_file (v : option ase) (s : cst) : cst :=
  mkCst (cur s) (nv s) (cs s) (commit s) (hellos s) (hello_timer s) v (conns s) (ctr s).
Definition with_conns (n : nat) (s : cst) : cst :=
  mkCst (cur s) (nv s) (cs s) (commit s) (hellos s) (hello_timer s) (file s) n (ctr s).

Definition have_name (a : ase) : bool := negb (length (cstr (a_name a)) =? 0)%nat.
Definition have_ip (a : ase) : bool :=
  negb (ip_addr (a_suite a) =? 0) || negb (ip_mask (a_suite a) =? 0)
  || negb (ip_gateway (a_suite a) =? 0).

(** ** Functions *)

(** pf_cmina_set_default_cfg, pf_cmina.c 152-345. *)
Definition set_default_cfg (k : cfg) (mode : Z) (s : cst) : cst :=
  let s :=
    if mode =? 0 then
      match file s with
      | Some f => with_nv (mkAse (terminate (a_name f)) (a_suite f)) s
      | None => with_nv (mkAse (terminate (k_name k)) (k_suite k)) s
      end
    else s in
  let app := (mode =? 1) || (3 <=? mode) in
  let s := if app then cemit CClearIm s else s in
  let s :=
    if (mode =? 2) || (3 <=? mode) then
      let s := with_nv ase0 s in
      let s := cemit (CSetIp suite0 [] true) s in
      cemit CClearPorts (with_file None s)
    else s in
  let s := if 0 <? mode then cemit (CResetInd app mode) s else s in
  let s := cemit CJob s in
  with_cur (nv s) s.

(** pf_cmina_dcp_set_commit, pf_cmina.c 347-420. *)
Definition set_commit (s : cst) : cst :=
  if negb (commit s) then s
  else
    let permanent :=
      suite_eqb (a_suite (cur s)) (a_suite (nv s))
      && list_eqb (cstr (a_name (cur s))) (cstr (a_name (nv s))) in
    cemit (CSetIp (a_suite (cur s)) (cstr (a_name (cur s))) permanent) (with_commit false s).

(** pf_cmina_init, pf_cmina.c 422-544.  [room]: the scheduler has room for the
    timer. *)
Definition cinit (k : cfg) (room : bool) (f : option ase) : cst :=
  let s := mkCst ase0 ase0 Setup false 0 false f 0 [] in
  let s := set_default_cfg k 0 s in
  let s :=
    if negb (have_name (cur s)) then
      with_cs SetName (if k_dhcp k then s else with_commit true s)
    else if negb (have_ip (cur s)) then
      with_cs SetIp (if k_dhcp k then s else with_commit true s)
    else
      let s := with_commit true s in
      with_cs WConnect (if k_hello k then with_hello 3 room s else s) in
  set_commit s.

(** pf_cmina_abort_active_ars, pf_cmina.c 552-571. *)
Definition abort_ars (code : Z) (s : cst) : nat * cst :=
  (conns s, match conns s with
            | O => s
            | n => with_conns 0 (cemit (CAbort n code) s)
            end).

(** The requests that reach pf_cmina_dcp_set_ind (see DcpModel.v): IP parameters
    or full IP suite, name, factory reset, reset to factory. *)
Inductive setreq := RqSuite (s : suite) | RqName (v : list Z) | RqFactory | RqReset.

(** The first part of pf_cmina_dcp_set_ind, pf_cmina.c 658-884: ret == 0, block
    error if it is written, change_ip, change_name, reset_mode. *)
Definition set_parse (r : setreq) (qual : Z) (s : cst)
  : bool * option Z * bool * bool * option Z * cst :=
  let temp := Z.land qual 1 =? 0 in
  match r with
  | RqSuite v =>
      if ipsuite_valid v then
        let change := negb (suite_eqb (a_suite (cur s)) v) in
        let s := with_cur (mkAse (a_name (cur s)) v) s in
        let s := with_nv (mkAse (a_name (nv s)) (if temp then suite0 else v)) s in
        (true, None, change, false, None, s)
      else (false, Some 3, false, false, None, s)
  | RqName v =>
      if (length v <? name_size)%nat then
        if stationname_valid v then
          let change := negb (list_eqb (cstr (a_name (cur s))) v) in
          let n := put_name v (a_name (cur s)) in
          let s := with_cur (mkAse n (a_suite (cur s))) s in
          let s := with_nv (mkAse (if temp then no_name else copy_name n (a_name (nv s)))
                                  (a_suite (nv s))) s in
          (true, None, false, change, None, s)
        else (false, Some 3, false, false, None, s)
      else (false, Some 3, false, false, None, s)
  | RqFactory => (true, None, false, false, Some 99, s)
  | RqReset => (true, None, false, false, Some (Z.shiftr qual 1), s)
  end.

(** The error codes PNET_ERROR_CODE_2_ABORT_DCP_STATION_NAME_CHANGED and
    PNET_ERROR_CODE_2_ABORT_DCP_RESET_TO_FACTORY, pnet_api.h. *)
Definition name_changed : Z := 31.
Definition reset_code : Z := 32.

(** The second part, pf_cmina.c 886-1059 (the states that cannot occur are left
    as they are), and the check 1061-1070. *)
Definition set_apply (change_ip change_name : bool) (reset : option Z) (s : cst) : bool * cst :=
  let s := cemit CJob s in
  let hn := have_name (cur s) in
  let hi := have_ip (cur s) in
  let is_reset := match reset with Some _ => true | None => false end in
  let '(ok, s) :=
    match cs s with
    | Setup => (false, s)
    | SetName | SetIp =>
        if change_name || change_ip then
          if hn && hi then (true, with_cs WConnect (with_commit true s))
          else if negb hn then (true, with_cs SetName s)
          else (true, with_cs SetIp s)
        else (true, s)
    | WConnect =>
        if negb change_name && negb change_ip && negb is_reset then (true, s)
        else if negb hn || is_reset then
          (true, snd (abort_ars (if is_reset then reset_code else name_changed) s))
        else if (hn && change_name) || negb hi then
          let '(n, s) := abort_ars name_changed s in
          let s := if (n =? 0)%nat then with_commit true s else s in
          (true, with_cs SetIp s)
        else if hi && change_ip then
          if (conns s =? 0)%nat then (true, with_commit true s) else (false, s)
        else (false, s)
    end in
  let s := match cs s with
           | SetIp | SetName => if hn && hi then with_cs WConnect s else s
           | _ => s
           end in
  (ok, s).

(** pf_cmina_dcp_set_ind, pf_cmina.c 624-1079: ret == 0, and the block error if
    it is written. *)
Definition set_ind (k : cfg) (r : setreq) (qual : Z) (s : cst) : bool * option Z * cst :=
  let s := with_hello (hellos s) false s in
  let '(ok, err, change_ip, change_name, reset, s) := set_parse r qual s in
  if ok then
    let '(ok, s) := set_apply change_ip change_name reset s in
    match reset with
    | Some m => (true, err, set_default_cfg k m s)
    | None => (ok, err, s)
    end
  else (false, err, s).

(** pf_cmina_send_hello, pf_cmina.c 60-81: the timer has expired. *)
Definition send_hello (room : bool) (s : cst) : cst :=
  match cs s, hellos s with
  | WConnect, S n => with_hello n room (cemit (CHello (cstr (a_name (cur s))) (a_suite (cur s))) s)
  | _, _ => with_hello 0 false s
  end.

(** pf_cmina_save_ase, pf_cmina.c 83-150, when it succeeds. *)
Definition save_ase (s : cst) : cst := with_file (Some (nv s)) s.

(** Events: a Set request with its blocks (each with its qualifier), which ends
    with a commit (pf_dcp.c 1106-1109); the timer of the HELLO messages; the
    background job; the number of connections changes; power cycle. *)
Inductive cinput :=
| NSet (l : list (setreq * Z)) | NHello (room : bool) | NSave | NConns (n : nat)
| NRestart (room : bool).

Fixpoint set_blocks (k : cfg) (l : list (setreq * Z)) (s : cst) : cst :=
  match l with
  | [] => s
  | (r, q) :: t => set_blocks k t (snd (set_ind k r q s))
  end.

Definition cstep (k : cfg) (e : cinput) (s : cst) : cst :=
  match e with
  | NSet l => set_commit (set_blocks k l s)
  | NHello room => if hello_timer s then send_hello room s else s
  | NSave => save_ase s
  | NConns n => with_conns n s
  | NRestart room =>
      let t := cinit k room (file s) in
      mkCst (cur t) (nv t) (cs t) (commit t) (hellos t) (hello_timer t) (file t) (conns t)
            (ctr t ++ ctr s)
  end.
Fixpoint crun (k : cfg) (es : list cinput) (s : cst) : cst :=
  match es with
  | [] => s
  | e :: r => crun k r (cstep k e s)
  end.
