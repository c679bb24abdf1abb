(** Model of DCP: src/common/pf_dcp.c, and pf_cmina_dcp_get_req of
    src/device/pf_cmina.c.

    Simplifications:
    - A received frame is the memory of its buffer, of which the first [f_len] bytes
      were received; reading behind the memory is Ub, reading behind [f_len] but in
      the memory gives what is there.
    - The response buffer has 1500 bytes (PF_FRAME_BUFFER_SIZE), is filled from front
      to back and sent up to the last byte written; it is a list.
    - Time is an unbounded number of microseconds; a timer fires at the first tick at
      or after its due time, which is the current time plus the delay (the rounding
      to ticks and the wrap-around of the clock are in the scheduler model).
    - The host is little endian.
    - Log messages, and the restart of LLDP after a response, are left out. *)
From Coq Require Import List ZArith Arith Bool.
From Verif Require Import Base CminaModel.
Import ListNotations.
Set Implicit Arguments.
Local Open Scope Z_scope.

(** ** Reading *)

Definition rd8 (m : list Z) (i : Z) : outcome Z :=
  if i <? 0 then Ub
  else match nth_error m (Z.to_nat i) with Some b => Ok b | None => Ub end.
(** ntohs of a uint16_t in memory. *)
Definition rd16 (m : list Z) (i : Z) : outcome Z :=
  do a <- rd8 m i; do b <- rd8 m (i + 1); Ok (a * 256 + b).
(** memcpy of n bytes. *)
Definition slice (m : list Z) (i n : Z) : outcome (list Z) :=
  if (i <? 0) || (n <? 0) || (Z.of_nat (length m) <? i + n) then Ub
  else Ok (firstn (Z.to_nat n) (skipn (Z.to_nat i) m)).
(** memcmp of n bytes, equal or not; bytes behind the first difference are not
    read. *)
Fixpoint memeq (a b : list Z) (n : nat) : outcome bool :=
  match n with
  | O => Ok true
  | S n => match a, b with
           | x :: a, y :: b => if x =? y then memeq a b n else Ok false
           | _, _ => Ub
           end
  end.

Definition be16 (v : Z) : list Z := [v / 256 mod 256; v mod 256].
Definition be32 (v : Z) : list Z := [v / 16777216 mod 256; v / 65536 mod 256; v / 256 mod 256; v mod 256].
Definition le16 (v : Z) : list Z := [v mod 256; v / 256 mod 256].
Definition le32 (v : Z) : list Z := [v mod 256; v / 256 mod 256; v / 65536 mod 256; v / 16777216 mod 256].
Definition of_be32 (l : list Z) : Z :=
  match l with
  | [a; b; c; d] => a * 16777216 + b * 65536 + c * 256 + d
  | _ => 0
  end.

(** ** Options *)

(** pf_dcp_opt_values_t and following, pf_dcp.h 26-93. *)
Definition o_ip := 1. Definition o_prop := 2. Definition o_dhcp := 3.
Definition o_control := 5. Definition o_initiative := 6. Definition o_all := 255.
Definition i_mac := 1. Definition i_par := 2. Definition i_suite := 3.
Definition p_vendor := 1. Definition p_name := 2. Definition p_id := 3. Definition p_role := 4.
Definition p_options := 5. Definition p_alias := 6. Definition p_instance := 7. Definition p_oem := 8.
Definition p_gateway := 9.
Definition c_start := 1. Definition c_stop := 2. Definition c_signal := 3. Definition c_response := 4.
Definition c_factory := 5. Definition c_reset := 6.

(** device_options, pf_dcp.c 133-159. *)
Definition device_options : list (Z * Z) :=
  [(o_ip, i_par); (o_ip, i_mac); (o_prop, p_vendor); (o_prop, p_name); (o_prop, p_id); (o_prop, p_role);
   (o_prop, p_options); (o_prop, p_alias); (o_control, c_start); (o_control, c_stop); (o_control, c_signal);
   (o_control, c_factory); (o_control, c_reset); (o_all, 255)].

(** sizeof product_name. *)
Definition product_size : nat := 26.

Definition host_suite (s : suite) : list Z := le32 (ip_addr s) ++ le32 (ip_mask s) ++ le32 (ip_gateway s).
Definition net_suite (s : suite) : list Z := be32 (ip_addr s) ++ be32 (ip_mask s) ++ be32 (ip_gateway s).
Definition no_dns : list Z := repeat 0 16.

(** pf_cmina_dcp_get_req, pf_cmina.c 1105-1243: block error, or the length of the
    value and the memory it is at the start of.  (The byte behind device_role is the
    first one of device_initiative; pf_types.h 1160-1180.)  For PF_DCP_OPT_ALL nothing
    is stored in the pointer. *)
Definition get_value (k : cfg) (a : ase) (opt sub : Z) : Z + (nat * list Z) :=
  let initiative := le16 (if k_hello k then 1 else 0) in
  if opt =? o_all then inr (0%nat, [])
  else if opt =? o_ip then
    if sub =? i_mac then inr (6%nat, k_mac k)
    else if sub =? i_par then inr (12%nat, host_suite (a_suite a))
    else if sub =? i_suite then inr (28%nat, host_suite (a_suite a) ++ no_dns)
    else inl 2
  else if opt =? o_prop then
    if sub =? p_vendor then inr ((product_size - 1)%nat, k_product k)
    else if sub =? p_name then inr (name_size, a_name a)
    else if sub =? p_id then inr (4%nat, k_device k)
    else if sub =? p_role then inr (1%nat, 1 :: initiative)
    else if sub =? p_instance then inr (2%nat, [0; 0])
    else if sub =? p_oem then inr (4%nat, k_oem k)
    else if sub =? p_gateway then inr (2%nat, [0; 0])
    else inl 2
  else if opt =? o_dhcp then inl 2
  else if opt =? o_control then inl 1
  else if opt =? o_initiative then
    if sub =? 1 then inr (2%nat, initiative) else inl 2
  else inl 1.

(** ** Writing *)

(** Room for blocks behind the headers (26 bytes). *)
Definition body_max : nat := 1474.
(** pf_put_byte and pf_put_mem, pf_block_writer.c 182-202, 224-262, on the part of the frame
    behind the headers. *)
Definition put1 (b : Z) (out : list Z) : list Z :=
  if (body_max <? length out + 1)%nat then out else out ++ [b].
Definition putn (l out : list Z) : list Z :=
  if (body_max <? length out + length l)%nat then out else out ++ l.

(** pf_dcp_put_block, pf_dcp.c 302-346.  (The padding loop ends after one round: the
    size of the buffer is even.) *)
Definition put_block (opt sub : Z) (info : option Z) (value out : list Z) : list Z :=
  if (body_max <=? length out + length value)%nat then out
  else
    let blen := Z.of_nat (length value) + (match info with Some _ => 2 | None => 0 end) in
    let out := put1 sub (put1 opt out) in
    let out := put1 (blen mod 256) (put1 (blen / 256 mod 256) out) in
    let out := match info with
               | Some i => put1 (i mod 256) (put1 (i / 256 mod 256) out)
               | None => out
               end in
    let out := match value with [] => out | _ => putn value out end in
    if Nat.odd (length out) then put1 0 out else out.

(** pf_dcp_get_req, pf_dcp.c 363-568: what is passed to pf_dcp_put_block, if it is
    called. *)
Definition get_block (k : cfg) (a : ase) (identify : bool) (alias : option (list Z)) (opt sub : Z)
  : option (Z * Z * option Z * list Z) :=
  let negative e := Some (o_control, c_response, None, [opt; sub; e]) in
  let positive i v := Some (opt, sub, Some i, v) in
  let any := negb ((ip_addr (a_suite a) =? 0) && (ip_mask (a_suite a) =? 0) && (ip_gateway (a_suite a) =? 0)) in
  let v := get_value k a opt sub in
  let plain := match v with inl e => negative e | inr (n, m) => positive 0 (firstn n m) end in
  let swapped := match v with
                 | inl e => negative e
                 | inr (n, m) => if (n =? 2)%nat then positive 0 (rev (firstn 2 m)) else negative 0
                 end in
  if opt =? o_ip then
    if sub =? i_par then positive (if any then 1 else 0) (net_suite (a_suite a))
    else if sub =? i_suite then positive (if any then 1 else 0) (net_suite (a_suite a) ++ no_dns)
    else if sub =? i_mac then if identify then None else plain
    else plain
  else if opt =? o_prop then
    if sub =? p_options then positive 0 (flat_map (fun o => [fst o; snd o]) device_options)
    else if sub =? p_gateway then swapped
    else if sub =? p_name then positive 0 (cstr (a_name a))
    else if sub =? p_alias then
      match alias with Some n => positive 0 n | None => None end
    else if sub =? p_vendor then positive 0 (cstr (k_product k))
    else if sub =? p_role then
      match v with inl e => negative e | inr (n, m) => positive 0 (firstn (n + 1) m) end
    else plain
  else if opt =? o_initiative then swapped
  else if (opt =? o_control) || (opt =? o_all) then None
  else plain.

Definition get_req (k : cfg) (a : ase) (identify : bool) (alias : option (list Z)) (opt sub : Z)
  (out : list Z) : list Z :=
  match get_block k a identify alias opt sub with
  | Some (o, s, i, v) => put_block o s i v out
  | None => out
  end.

(** ** State *)

(** Effects.  DSend: a frame is sent; DLed: the signal LED is switched; DGot, DFree:
    a buffer for a response is allocated and freed; DFreeReq: the buffer of the
    request is freed. *)
Inductive dobs := DSend (f : list Z) | DLed (on : bool) | DGot | DFree | DFreeReq.

Record dst := mkDst {
  d_cm : cst;
  d_sam : list Z; d_samt : option Z;          (* dcp_sam; its timer: due time *)
  d_wait : bool;                              (* dcp_delayed_response_waiting *)
  d_resp : option (Z * list Z);               (* due time, buffer of the timer *)
  d_led : option (Z * Z);                     (* due time, argument of the timer *)
  d_qual : Z;                                 (* dcp_global_block_qualifier *)
  d_now : Z;
  d_tr : list dobs }.                         (* newest first *)

Definition demit (o : dobs) (s : dst) : dst :=
  mkDst (d_cm s) (d_sam s) (d_samt s) (d_wait s) (d_resp s) (d_led s) (d_qual s) (d_now s) (o :: d_tr s).
Definition with_cm (v : cst) (s : dst) : dst :=
  mkDst v (d_sam s) (d_samt s) (d_wait s) (d_resp s) (d_led s) (d_qual s) (d_now s) (d_tr s).
Definition with_sam (m : list Z) (t : option Z) (s : dst) : dst :=
  mkDst (d_cm s) m t (d_wait s) (d_resp s) (d_led s) (d_qual s) (d_now s) (d_tr s).
Definition with_resp (w : bool) (r : option (Z * list Z)) (s : dst) : dst :=
  mkDst (d_cm s) (d_sam s) (d_samt s) w r (d_led s) (d_qual s) (d_now s) (d_tr s).
Definition with_led (v : option (Z * Z)) (s : dst) : dst :=
  mkDst (d_cm s) (d_sam s) (d_samt s) (d_wait s) (d_resp s) v (d_qual s) (d_now s) (d_tr s).
Definition with_qual (v : Z) (s : dst) : dst :=
  mkDst (d_cm s) (d_sam s) (d_samt s) (d_wait s) (d_resp s) (d_led s) v (d_now s) (d_tr s).
Definition with_now (v : Z) (s : dst) : dst :=
  mkDst (d_cm s) (d_sam s) (d_samt s) (d_wait s) (d_resp s) (d_led s) (d_qual s) v (d_tr s).

Definition mac_nil : list Z := repeat 0 6.

(** pf_dcp_init, pf_dcp.c 2007-2029, after pf_cmina_init. *)
Definition dinit (c : cst) : dst := mkDst c mac_nil None false None None 0 0 [].

(** ** Set *)

(** pf_dcp_trigger_signal_led, pf_dcp.c 646-671. [room]: pf_scheduler_add succeeds. *)
Definition led_half : Z := 500000.
Definition trigger_led (room : bool) (s : dst) : dst :=
  match d_led s with
  | None => if room then with_led (Some (d_now s + led_half, 5)) s else s
  | Some _ => s
  end.

(** pf_dcp_set_req, pf_dcp.c 690-903, without the call of pf_dcp_put_block: the block
    error of the response.  Memory [m], value at [pos]. *)
Definition set_req (k : cfg) (room : bool) (m : list Z) (opt sub qual vlen pos : Z) (s : dst)
  : outcome (Z * dst) :=
  let cmina r :=
    let '(ok, e, c) := set_ind k r qual (d_cm s) in
    Ok ((if ok then 0 else match e with Some e => e | None => 2 end), with_cm c s) in
  if opt =? o_ip then
    if (sub =? i_par) || (sub =? i_suite) then
      if vlen =? 12 then
        do v <- slice m pos (if sub =? i_par then 12 else 28);
        cmina (RqSuite (mkSuite (of_be32 (firstn 4 v)) (of_be32 (firstn 4 (skipn 4 v)))
                                (of_be32 (firstn 4 (skipn 8 v)))))
      else Ok (2, s)
    else Ok (2, s)
  else if opt =? o_prop then
    if sub =? p_name then
      if vlen <? Z.of_nat name_size then do v <- slice m pos vlen; cmina (RqName v)
      else cmina (RqName (repeat 0 name_size))
    else Ok (2, s)
  else if opt =? o_dhcp then Ok (2, s)
  else if opt =? o_control then
    if sub =? c_start then Ok (0, with_qual qual s)
    else if sub =? c_stop then Ok (0, s)
    else if sub =? c_signal then Ok (0, trigger_led room s)
    else if sub =? c_factory then cmina RqFactory
    else if sub =? c_reset then cmina RqReset
    else Ok (2, s)
  else Ok (1, s).

(** The loop over the blocks of a Set request, pf_dcp.c 1026-1056.  [hdr]: position of
    the block header, [pos]: src_pos, [blen]: src_block_len.  AssertFail stands for
    running out of fuel. *)
Fixpoint set_loop (fuel : nat) (k : cfg) (room : bool) (m : list Z) (dcplen hdr pos blen : Z)
  (out : list Z) (s : dst) : outcome (list Z * dst) :=
  match fuel with
  | O => AssertFail
  | S fuel =>
      if pos + blen <=? dcplen then
        do qual <- rd16 m pos;
        do opt <- rd8 m hdr;
        do sub <- rd8 m (hdr + 1);
        let pos := u16 (pos + 2) in
        let blen := u16 (blen - 2) in
        do (e, s) <- set_req k room m opt sub qual blen pos s;
        let out := put_block o_control c_response None [opt; sub; e] out in
        let pos := u16 (pos + blen) in
        let pos := if Z.odd pos then u16 (pos + 1) else pos in
        do blen <- rd16 m (pos + 2);
        set_loop fuel k room m dcplen pos (u16 (pos + 4)) blen out s
      else Ok (out, s)
  end.

(** ** Get *)

(** The loop over the blocks of a Get request, pf_dcp.c 1067-1081. *)
Fixpoint get_loop (fuel : nat) (k : cfg) (a : ase) (m : list Z) (dcplen pos : Z) (out : list Z)
  : outcome (list Z) :=
  match fuel with
  | O => AssertFail
  | S fuel =>
      if pos + 2 <=? dcplen then
        do opt <- rd8 m pos;
        do sub <- rd8 m (pos + 1);
        get_loop fuel k a m dcplen (u16 (pos + 2)) (get_req k a false None opt sub out)
      else Ok out
  end.

(** ** Requests and responses *)

(** A received frame: buffer, p_buf->len, frame_id_pos. *)
Record frame := mkFrame { f_mem : list Z; f_len : Z; f_pos : Z }.

(** pf_dcp_check_sam, pf_dcp.c 257-261. *)
Definition check_sam (s : dst) (mac : list Z) : bool :=
  list_eqb (d_sam s) mac_nil || list_eqb (d_sam s) mac.

(** pf_dcp_check_destination_address, pf_dcp.c 278-285. *)
Definition check_dest (own dest : list Z) : bool :=
  (Z.land (hd 0 dest) 1 =? 0) && list_eqb dest own.

(** pf_dcp_restart_sam_timeout, pf_dcp.c 228-244. *)
Definition sam_time : Z := 3000000.
Definition restart_sam (room : bool) (mac : list Z) (s : dst) : dst :=
  with_sam mac (if room then Some (d_now s + sam_time) else None) s.

(** The frame of a response, pf_dcp.c 983-1013, 1096-1098 and 1536-1563, 1926-1928:
    [hdr] is the DCP header of the request. *)
Definition response (dest own : list Z) (fid stype : Z) (hdr body : list Z) : list Z :=
  dest ++ own ++ [136; 146] ++ be16 fid
  ++ firstn 1 hdr ++ [stype] ++ firstn 4 (skipn 2 hdr) ++ [0; 0]
  ++ be16 (Z.of_nat (length body)) ++ body.

Definition get_set_id : Z := 65277.           (* 0xfefd *)
Definition id_res_id : Z := 65279.            (* 0xfeff *)

(** Number of rounds that suffices for the loops. *)
Definition rounds (f : frame) : nat := S (Z.to_nat (f_len f)).

(** pf_dcp_get_set, pf_dcp.c 924-1124.  [alloc]: pnal_buf_alloc succeeds; [room]:
    the scheduler has room. *)
Definition get_set (k : cfg) (alloc room : bool) (f : frame) (s : dst) : outcome dst :=
  let m := f_mem f in
  let hdr := u16 (f_pos f + 2) in
  let pos := u16 (hdr + 10) in
  do dlen <- rd16 m (hdr + 8);
  let dcplen := u16 (pos + dlen) in
  if f_len f <? dcplen then Ok (demit DFreeReq s)
  else if negb alloc then Ok (demit DFreeReq s)
  else
    let s := demit DGot s in
    do src <- slice m 6 6;
    do dest <- slice m 0 6;
    if negb (check_sam s src) || negb (check_dest (k_mac k) dest) then Ok (demit DFree (demit DFreeReq s))
    else
      do h <- slice m hdr 10;
      do sid <- rd8 m hdr;
      do (stype, body, s) <-
        (if sid =? 4 then
           do blen <- rd16 m (pos + 2);
           do (body, s) <- set_loop (rounds f) k room m dcplen pos (u16 (pos + 4)) blen [] s;
           Ok (1, body, restart_sam room src s)
         else if sid =? 3 then
           do body <- get_loop (rounds f) k (cur (d_cm s)) m dcplen pos [];
           Ok (1, body, restart_sam room src s)
         else Ok (5, [], s));
      let s := demit (DSend (response src (k_mac k) get_set_id stype h body)) s in
      let s := if sid =? 4 then with_cm (set_commit (d_cm s)) s else s in
      Ok (demit DFree (demit DFreeReq s)).

(** ** Identify *)

(** pf_dcp_calculate_response_delay, pf_dcp.c 1406-1421. *)
Definition response_delay (mac : list Z) (factor : Z) : Z :=
  if (factor =? 0) || (6400 <? factor) then 0
  else (u16 (nth 4 mac 0 * 256 + nth 5 mac 0) mod factor) * 10 * 1000.

(** One round of the loop over the filters, pf_dcp.c 1594-1873, 1889-1904: None if
    the block is not known, otherwise ret == 0, match, filter and the alias name
    after it. [names]: the alias names of the ports (pf_lldp_is_alias_matching,
    pf_lldp.c 1808-1837).  Simplification: for a device role the code also
    increments the block length in the request, which is not read again. *)
Definition alias_size : Z := 256.
Definition filter_block (k : cfg) (a : ase) (names : list (list Z)) (m : list Z) (opt sub pos blen : Z)
  (first filter : bool) (alias : option (list Z))
  : outcome (option (bool * bool * bool * option (list Z))) :=
  let src := skipn (Z.to_nat pos) m in
  let bad := Ok (Some (false, true, filter, alias)) in
  let miss := Ok (Some (true, false, filter, alias)) in
  match get_value k a opt sub with
  | inr (n, v) =>
      let same :=
        if filter then
          do e <- memeq v src n;
          if e && (blen =? Z.of_nat n) then Ok (Some (true, true, filter, alias)) else miss
        else bad in
      if opt =? o_all then
        if (sub =? 255) && first && ((blen =? 2) || (blen =? 0))
        then Ok (Some (true, true, false, alias)) else bad
      else if opt =? o_ip then
        if (sub =? i_mac) || (sub =? i_par) then same else bad
      else if opt =? o_prop then
        if sub =? p_name then
          do e <- memeq v src (Z.to_nat blen);
          if e then
            do z <- rd8 v blen;
            if z =? 0 then Ok (Some (true, true, first || filter, alias)) else miss
          else miss
        else same
      else bad
  | inl _ =>
      if (opt =? o_prop) && (sub =? p_alias) then
        if blen <? alias_size then
          do v <- slice m pos blen;
          if existsb (list_eqb (cstr v)) names then
            Ok (Some (true, true, first || filter, if first then Some (cstr v) else alias))
          else miss
        else miss
      else Ok None
  end.

(** The loop, pf_dcp.c 1572-1907: ret == 0 && match, and the alias name.  (dst_pos is
    26 throughout.) *)
Fixpoint filter_loop (fuel : nat) (k : cfg) (a : ase) (names : list (list Z)) (m : list Z)
  (dcplen hdr pos blen : Z) (first filter : bool) (alias : option (list Z))
  : outcome (bool * option (list Z)) :=
  match fuel with
  | O => AssertFail
  | S fuel =>
      if (first || filter) && (pos + blen <=? dcplen) then
        do opt <- rd8 m hdr;
        do sub <- rd8 m (hdr + 1);
        do r <- filter_block k a names m opt sub pos blen first filter alias;
        match r with
        | None => Ok (false, alias)
        | Some (ok, mt, filter, alias) =>
            let pos := u16 (pos + blen) in
            let pos := if Z.odd pos then u16 (pos + 1) else pos in
            do blen <- rd16 m (pos + 2);
            if ok && mt
            then filter_loop fuel k a names m dcplen pos (u16 (pos + 4)) blen false filter alias
            else Ok (false, alias)
        end
      else Ok (true, alias)
  end.

(** The blocks of the response, pf_dcp.c 1912-1924. *)
Definition identify_body (k : cfg) (a : ase) (alias : option (list Z)) : list Z :=
  fold_left (fun out o => get_req k a true alias (fst o) (snd o) out) device_options [].

(** pf_dcp_identify_req, pf_dcp.c 1445-1998. *)
Definition identify (k : cfg) (alloc room : bool) (names : list (list Z)) (f : frame) (s : dst)
  : outcome dst :=
  let m := f_mem f in
  let hdr := u16 (f_pos f + 2) in
  let pos := u16 (hdr + 10) in
  do dlen <- rd16 m (hdr + 8);
  let dcplen := u16 (pos + dlen) in
  if f_len f <? dcplen then Ok (demit DFreeReq s)
  else if d_wait s then Ok (demit DFreeReq s)
  else if negb alloc then Ok (demit DFreeReq s)
  else
    let s := demit DGot s in
    do src <- slice m 6 6;
    do h <- slice m hdr 10;
    do blen <- rd16 m (pos + 2);
    do (hit, alias) <- filter_loop (rounds f) k (cur (d_cm s)) names m dcplen pos (u16 (pos + 4)) blen true false None;
    if hit then
      let body := identify_body k (cur (d_cm s)) alias in
      let rsp := response src (k_mac k) id_res_id 1 h body in
      do factor <- rd16 m (hdr + 6);
      if room then Ok (demit DFreeReq (with_resp true (Some (d_now s + response_delay (k_mac k) factor, rsp)) s))
      else Ok (demit DFreeReq (demit DFree s))
    else Ok (demit DFreeReq (demit DFree s)).

(** ** Timers *)

(** pf_dcp_clear_sam, pf_dcp.c 209-217. *)
Definition sam_tick (s : dst) : dst :=
  match d_samt s with
  | Some t => if t <=? d_now s then with_sam mac_nil None s else s
  | None => s
  end.

(** pf_dcp_responder, pf_dcp.c 176-194. *)
Definition resp_tick (s : dst) : dst :=
  match d_resp s with
  | Some (t, b) =>
      if t <=? d_now s then with_resp false None (demit DFree (demit (DSend b) s)) else s
  | None => s
  end.

(** pf_dcp_control_signal_led, pf_dcp.c 588-634. *)
Definition led_tick (room : bool) (s : dst) : dst :=
  match d_led s with
  | Some (t, n) =>
      if t <=? d_now s then
        let s := demit (DLed (Z.odd n)) s in
        if (0 <? n) && (n <? 200) then
          with_led (if room then Some (d_now s + led_half, n - 1) else None) s
        else with_led None s
      else s
  | None => s
  end.

(** Events: Get/Set request and Identify request with the outcomes of allocation and
    scheduling; time passes and the timers that are due fire; another event of the
    station settings (a power cycle also initialises DCP). *)
Inductive dinput :=
| DGetSet (alloc room : bool) (f : frame)
| DIdentify (alloc room : bool) (names : list (list Z)) (f : frame)
| DTick (dt : Z) (room : bool)
| DCmina (e : cinput).

Definition dstep (k : cfg) (e : dinput) (s : dst) : outcome dst :=
  match e with
  | DGetSet alloc room f => get_set k alloc room f s
  | DIdentify alloc room names f => identify k alloc room names f s
  | DTick dt room => Ok (led_tick room (resp_tick (sam_tick (with_now (d_now s + dt) s))))
  | DCmina e =>
      let s := with_cm (cstep k e (d_cm s)) s in
      match e with
      | NRestart _ => Ok (mkDst (d_cm s) mac_nil None false None None 0 (d_now s) (d_tr s))
      | _ => Ok s
      end
  end.
Fixpoint drun (k : cfg) (es : list dinput) (s : dst) : outcome dst :=
  match es with
  | [] => Ok s
  | e :: r => do t <- dstep k e s; drun k r t
  end.
