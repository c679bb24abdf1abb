(** Vocabulary for the properties of DCP, independent of the model of pf_dcp.c. *)
From Coq Require Import List ZArith Arith Bool.
From Verif Require Import Base CminaModel DcpModel.
Import ListNotations.
Local Open Scope Z_scope.

Definition byte (b : Z) : Prop := 0 <= b < 256.
Definition bytes (l : list Z) : Prop := Forall byte l.

(** 16 and 32 bit numbers on the wire, most significant byte first. *)
Definition w16 (v : Z) : list Z := [v / 256; v mod 256].
Definition w32 (v : Z) : list Z := [v / 16777216; v / 65536 mod 256; v / 256 mod 256; v mod 256].
Definition even_pad (l : list Z) : list Z := if Nat.odd (length l) then l ++ [0] else l.

(** ** Requests *)

(** A frame in its buffer.  mid: what is between the addresses and the frame
    identifier (type, and perhaps a tag); [junk]: whatever follows in memory, of which
    the first [pad] bytes were received. *)
Record msg := mkMsg {
  q_dest : list Z; q_src : list Z; q_mid : list Z; q_fid : list Z;
  q_sid : Z; q_type : Z; q_xid : list Z; q_delay : Z; q_data : list Z;
  q_junk : list Z; q_pad : Z }.

Definition msg_head (q : msg) : list Z :=
  q_dest q ++ q_src q ++ q_mid q ++ q_fid q
  ++ [q_sid q; q_type q] ++ q_xid q ++ w16 (q_delay q) ++ w16 (Z.of_nat (length (q_data q))).
Definition frame_of (q : msg) : frame :=
  mkFrame (msg_head q ++ q_data q ++ q_junk q)
          (Z.of_nat (length (msg_head q ++ q_data q)) + q_pad q)
          (12 + Z.of_nat (length (q_mid q))).
(** The sizes of the fields; the whole fits in a frame of 65000 bytes and the buffer
    has 32 bytes more than the data. *)
Definition msg_ok (q : msg) : Prop :=
  length (q_dest q) = 6%nat /\ length (q_src q) = 6%nat /\ Nat.even (length (q_mid q)) = true /\
  length (q_fid q) = 2%nat /\ length (q_xid q) = 4%nat /\
  (32 <= length (q_junk q))%nat /\ 0 <= q_pad q <= Z.of_nat (length (q_junk q)) /\
  f_len (frame_of q) <= 65000 /\
  0 <= q_delay q < 65536 /\ bytes (q_junk q).

(** A block of a Set request. *)
Record sblock := mkSb { b_opt : Z; b_sub : Z; b_qual : Z; b_val : list Z }.
Definition enc_sblock (b : sblock) : list Z :=
  even_pad ([b_opt b; b_sub b] ++ w16 (2 + Z.of_nat (length (b_val b))) ++ w16 (b_qual b) ++ b_val b).
Definition sblock_ok (b : sblock) : Prop := 0 <= b_qual b < 65536 /\ bytes (b_val b).
(** A block of an Identify request. *)
Record iblock := mkIb { i_opt : Z; i_sub : Z; i_val : list Z }.
Definition enc_iblock (b : iblock) : list Z :=
  even_pad ([i_opt b; i_sub b] ++ w16 (Z.of_nat (length (i_val b))) ++ i_val b).

Definition enc_set (l : list sblock) : list Z := flat_map enc_sblock l.
Definition enc_get (l : list (Z * Z)) : list Z := flat_map (fun p => [fst p; snd p]) l.
Definition enc_identify (l : list iblock) : list Z := flat_map enc_iblock l.

(** ** Meaning of a Set request *)

Definition val32 (l : list Z) : Z := fold_left (fun a b => a * 256 + b) l 0.
(** The change of the settings that a block asks for, if any: IP parameters or IP
    suite, name, factory reset, reset to factory. *)
Definition asked (b : sblock) : option setreq :=
  if b_opt b =? 1 then
    if ((b_sub b =? 2) || (b_sub b =? 3)) && (length (b_val b) =? 12)%nat then
      Some (RqSuite (mkSuite (val32 (firstn 4 (b_val b))) (val32 (firstn 4 (skipn 4 (b_val b))))
                             (val32 (skipn 8 (b_val b)))))
    else None
  else if (b_opt b =? 2) && (b_sub b =? 2) then Some (RqName (b_val b))
  else if (b_opt b =? 5) && (b_sub b =? 5) then Some RqFactory
  else if (b_opt b =? 5) && (b_sub b =? 6) then Some RqReset
  else None.
Fixpoint asked_all (l : list sblock) : list (setreq * Z) :=
  match l with
  | [] => []
  | b :: r => match asked b with Some q => (q, b_qual b) :: asked_all r | None => asked_all r end
  end.

(** The block error with which a block is answered when it asks for no change:
    start, stop and signal are accepted, options 1, 2, 3 and 5 are known. *)
Definition other_error (b : sblock) : Z :=
  if (b_opt b =? 5) && ((1 <=? b_sub b) && (b_sub b <=? 3)) then 0
  else if ((1 <=? b_opt b) && (b_opt b <=? 3)) || (b_opt b =? 5) then 2
  else 1.
(** The block errors of the answer: 0 if the change was made, 3 if the value is not
    valid, 2 if the device refuses the change. *)
Fixpoint set_errors (k : cfg) (l : list sblock) (c : cst) : list Z :=
  match l with
  | [] => []
  | b :: r =>
      match asked b with
      | Some q =>
          let '(ok, e, c') := set_ind k q (b_qual b) c in
          (if ok then 0 else match e with Some x => x | None => 2 end) :: set_errors k r c'
      | None => other_error b :: set_errors k r c
      end
  end.
(** The data of the answer to a Set request: for each block its option and
    suboption and the block error. *)
Definition set_answer (l : list sblock) (es : list Z) : list Z :=
  flat_map (fun p => [5; 4; 0; 3; b_opt (fst p); b_sub (fst p); snd p; 0]) (combine l es).
Definition is_signal (b : sblock) : bool := (b_opt b =? 5) && (b_sub b =? 3).

(** A response: addresses swapped, no delay, the transaction number of the request. *)
Definition answer_frame (q : msg) (own fid : list Z) (stype : Z) (data : list Z) : list Z :=
  q_src q ++ own ++ [136; 146] ++ fid ++ [q_sid q; stype] ++ q_xid q ++ [0; 0]
  ++ w16 (Z.of_nat (length data)) ++ data.

(** ** Answers to a Get request *)

Definition some_ip (s : suite) : bool :=
  negb (ip_addr s =? 0) || negb (ip_mask s =? 0) || negb (ip_gateway s =? 0).
Definition suite_bytes (s : suite) : list Z := w32 (ip_addr s) ++ w32 (ip_mask s) ++ w32 (ip_gateway s).
(** A block with a block info and a value; a negative block. *)
Definition pos_block (opt sub info : Z) (v : list Z) : list Z :=
  even_pad ([opt; sub] ++ w16 (2 + Z.of_nat (length v)) ++ w16 info ++ v).
Definition neg_block (opt sub err : Z) : list Z := [5; 4; 0; 3; opt; sub; err; 0].

Definition supported : list Z :=
  [1; 2; 1; 1; 2; 1; 2; 2; 2; 3; 2; 4; 2; 5; 2; 6; 5; 1; 5; 2; 5; 3; 5; 5; 5; 6; 255; 255].
(** What the device tells about an option. *)
Definition answer (k : cfg) (a : ase) (opt sub : Z) : list Z :=
  let hello := if k_hello k then 1 else 0 in
  let ip := if some_ip (a_suite a) then 1 else 0 in
  match opt, sub with
  | 1, 1 => pos_block 1 1 0 (k_mac k)
  | 1, 2 => pos_block 1 2 ip (suite_bytes (a_suite a))
  | 1, 3 => pos_block 1 3 ip (suite_bytes (a_suite a) ++ repeat 0 16)
  | 2, 1 => pos_block 2 1 0 (cstr (k_product k))
  | 2, 2 => pos_block 2 2 0 (cstr (a_name a))
  | 2, 3 => pos_block 2 3 0 (k_device k)
  | 2, 4 => pos_block 2 4 0 [1; hello]
  | 2, 5 => pos_block 2 5 0 supported
  | 2, 6 => []
  | 2, 7 => pos_block 2 7 0 [0; 0]
  | 2, 8 => pos_block 2 8 0 (k_oem k)
  | 2, 9 => pos_block 2 9 0 [0; 0]
  | 6, 1 => pos_block 6 1 0 [0; hello]
  | 5, _ | 255, _ => []
  | 1, s | 2, s | 3, s | 6, s => neg_block opt s 2
  | o, s => neg_block o s 1
  end.
Definition get_answer (k : cfg) (a : ase) (l : list (Z * Z)) : list Z :=
  flat_map (fun p => answer k a (fst p) (snd p)) l.

(** ** Identify *)

(** The filters that are compared with what is on the wire: name, alias, MAC
    address, identifiers and instance. *)
Definition plain_filter (b : iblock) : Prop :=
  ~ In 0 (i_val b) /\ (i_opt b, i_sub b) = (2, 2) \/
  ~ In 0 (i_val b) /\ (i_opt b, i_sub b) = (2, 6) \/
  In (i_opt b, i_sub b) [(1, 1); (2, 3); (2, 7); (2, 8)].
Definition matches (k : cfg) (a : ase) (names : list (list Z)) (b : iblock) : Prop :=
  match i_opt b, i_sub b with
  | 2, 2 => i_val b = cstr (a_name a)
  | 2, 6 => In (i_val b) names
  | 1, 1 => i_val b = k_mac k
  | 2, 3 => i_val b = k_device k
  | 2, 7 => i_val b = [0; 0]
  | 2, 8 => i_val b = k_oem k
  | _, _ => False
  end.
(** A request to all devices, or one for which name or alias and all other filters
    match. *)
Definition names_first (l : list iblock) : Prop :=
  match l with
  | b :: _ => (i_opt b, i_sub b) = (2, 2) \/ (i_opt b, i_sub b) = (2, 6)
  | [] => False
  end.
Definition selected (k : cfg) (a : ase) (names : list (list Z)) (l : list iblock) : Prop :=
  names_first l /\ Forall (matches k a names) l.
Definition to_all (l : list iblock) : Prop :=
  exists v r, l = mkIb 255 255 v :: r /\ (length v = 0 \/ length v = 2)%nat.

(** The data of the answer: IP parameters, product, name, identifiers, role,
    options, and the alias if that was asked for. *)
Definition identify_answer (k : cfg) (a : ase) (l : list iblock) : list Z :=
  answer k a 1 2 ++ answer k a 2 1 ++ answer k a 2 2 ++ answer k a 2 3 ++ answer k a 2 4 ++ answer k a 2 5
  ++ match l with
     | b :: _ => if (i_opt b =? 2) && (i_sub b =? 6) then pos_block 2 6 0 (i_val b) else []
     | [] => []
     end.

(** ** Configuration *)

(** The sizes of the fields of the configuration. *)
Definition dcfg_ok (k : cfg) : Prop :=
  length (k_mac k) = 6%nat /\ Z.odd (hd 0 (k_mac k)) = false /\ bytes (k_mac k) /\
  length (k_product k) = 26%nat /\ In 0 (k_product k) /\
  length (k_device k) = 4%nat /\ length (k_oem k) = 4%nat.
Definition w32_ok (z : Z) : Prop := 0 <= z < 4294967296.
Definition suite_ok (s : suite) : Prop := w32_ok (ip_addr s) /\ w32_ok (ip_mask s) /\ w32_ok (ip_gateway s).
Definition ase_ok (a : ase) : Prop :=
  length (a_name a) = 241%nat /\ In 0 (a_name a) /\ suite_ok (a_suite a).

(** ** Traces (newest first) *)

Definition sent (l : list dobs) : list (list Z) :=
  flat_map (fun o => match o with DSend f => [f] | _ => [] end) l.
Definition leds (l : list dobs) : list bool :=
  flat_map (fun o => match o with DLed b => [b] | _ => [] end) l.
Definition is_got (o : dobs) : bool := match o with DGot => true | _ => false end.
Definition is_free (o : dobs) : bool := match o with DFree => true | _ => false end.
Definition is_free_req (o : dobs) : bool := match o with DFreeReq => true | _ => false end.
Definition count (p : dobs -> bool) (l : list dobs) : nat := length (filter p l).

(** Nothing but the buffers of request and response is touched: same settings, lock,
    pending response and LED; nothing is sent.  The buffer of the request is freed. *)
Definition no_effect (s t : dst) : Prop :=
  exists new, t = mkDst (d_cm s) (d_sam s) (d_samt s) (d_wait s) (d_resp s) (d_led s) (d_qual s) (d_now s)
                        (new ++ d_tr s) /\
    sent new = [] /\ leds new = [] /\ count is_got new = count is_free new /\
    count is_free_req new = 1%nat.
(** A response is sent. *)
Definition answered (s t : dst) : Prop := exists r, sent (d_tr t) = r :: sent (d_tr s).

(** Destination and source address of a frame. *)
Definition dest_of (f : frame) : list Z := firstn 6 (f_mem f).
Definition src_of (f : frame) : list Z := firstn 6 (skipn 6 (f_mem f)).
Definition service_of (f : frame) : option Z := nth_error (f_mem f) (Z.to_nat (f_pos f + 2)).

(** ** Histories *)

Fixpoint elapsed (es : list dinput) : Z :=
  match es with
  | [] => 0
  | DTick dt _ :: r => dt + elapsed r
  | _ :: r => elapsed r
  end.
Definition forward (es : list dinput) : Prop :=
  Forall (fun e => match e with DTick dt _ => 0 <= dt | _ => True end) es.
Definition powered (es : list dinput) : Prop :=
  Forall (fun e => match e with DCmina (NRestart _) => False | _ => True end) es.
(** The scheduler always has room. *)
Definition roomy (es : list dinput) : Prop :=
  Forall (fun e => match e with
                   | DGetSet _ room _ | DIdentify _ room _ _ | DTick _ room => room = true
                   | DCmina _ => True end) es.
Definition is_get_set (e : dinput) : bool := match e with DGetSet _ _ _ => true | _ => false end.
Definition is_identify (e : dinput) : bool := match e with DIdentify _ _ _ _ => true | _ => false end.

(** The delay before the answer to an Identify request, in microseconds, for a device
    with this MAC address. *)
Definition spread (mac : list Z) (factor : Z) : Z :=
  if (1 <=? factor) && (factor <=? 6400) then ((256 * nth 4 mac 0 + nth 5 mac 0) mod factor) * 10000 else 0.

(** What the LED does when it flashes: three times on and off. *)
Definition flashes : list bool := [true; false; true; false; true; false].
Fixpoint times (n : nat) (l : list bool) : list bool :=
  match n with O => [] | S n => l ++ times n l end.

(** The data of a message as a list of blocks: each has a header and as many bytes as
    it says, and starts at an even position. *)
Inductive block_list : list Z -> Prop :=
| bl_nil : block_list []
| bl_cons : forall o s v r, block_list r ->
    block_list (even_pad ([o; s] ++ w16 (Z.of_nat (length v)) ++ v) ++ r).

(** A frame without tag as it arrives, in a buffer with [junk] behind it. *)
Definition received (w junk : list Z) : frame := mkFrame (w ++ junk) (Z.of_nat (length w)) 14.

(** Two devices and a frame that is delivered to the first one: it answers, the second
    one answers the answer, and so on; delays [ds] before the deliveries. *)
Inductive bounces (junk : list Z) : list Z -> cfg -> dst -> cfg -> dst -> list Z -> Prop :=
| bo_nil : forall ka sa kb sb w, bounces junk [] ka sa kb sb w
| bo_cons : forall d ds ka sa kb sb w ta tb r,
    drun ka [DTick d true; DGetSet true true (received w junk)] sa = Ok ta ->
    sent (d_tr ta) = r :: sent (d_tr sa) ->
    drun kb [DTick d true] sb = Ok tb ->
    bounces junk ds kb tb ka ta r ->
    bounces junk (d :: ds) ka sa kb sb w.

(** Two frames of which the same bytes have been received. *)
Definition same_received (f g : frame) : Prop :=
  f_len f = f_len g /\ f_pos f = f_pos g /\
  firstn (Z.to_nat (f_len f)) (f_mem f) = firstn (Z.to_nat (f_len g)) (f_mem g).
