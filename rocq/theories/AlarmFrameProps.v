(** Alarm frames (C118). *)
From Coq Require Import List ZArith Arith Bool Lia.
From Verif Require Import Base PpmModel BlockModel BlockReadLemmas BlockWriteProps IdentModel IdentProps DiffModel DiffProps DiffBlockProps IdentReadModel IdentReadProps.
From Verif Require Import DiagModel DiagSpec DiagLists DiagInv DiagSteps DiagProps DiagReportProps DiagReadModel DiagReadProps AlarmFrameModel.
Import ListNotations.
Local Open Scope Z_scope.

(** * Specification *)

(** What is reported to the controller: a process alarm of the application with a payload,
    a diagnosis that appears, changes or disappears, a manufacturer specific diagnosis of
    which the last one disappears, and changes of the modules. *)
Inductive event :=
| EvProcess (usi len : Z) (p : option (list Z))
| EvDiagnosis (i : ditem)
| EvGone (usi : Z)
| EvPull
| EvPlug (m k : Z)
| EvPlugWrong (m k : Z)
| EvReleased (m k : Z).
Definition raise (z : asizes) (c : aconn) (d : dev) (p : place) (ev : event) : outcome (option queued) :=
  let '(a, s, t) := p in
  match ev with
  | EvProcess usi len x => send_process z c d a s t usi len x
  | EvDiagnosis i => send_diagnosis z c d a s t i
  | EvGone usi => send_gone z c d a s t usi
  | EvPull => send_pull z c a s t
  | EvPlug m k => send_plug z c a s t m k
  | EvPlugWrong m k => send_plug_wrong z c a s t m k
  | EvReleased m k => send_released z c a s t m k
  end.

(** High priority; alarm type (pf_types.h:879-911); the payload; the ident numbers the alarm
    is to name: those that are plugged, or those given. *)
Definition ev_high (ev : event) : bool := match ev with EvProcess _ _ _ => true | _ => false end.
Definition ev_type (c : aconn) (p : place) (ev : event) : Z :=
  match ev with
  | EvProcess _ _ _ => 2
  | EvDiagnosis i => match content i with Standard _ s => if ch_err s =? 32769 (* remote mismatch *) then 14 else 1 | Manufacturer _ _ => 1 end
  | EvGone _ => 12
  | EvPull => if (snd p =? 0) && n_pull_module c then 31 else 3
  | EvPlug _ _ => 4
  | EvPlugWrong _ _ => 10
  | EvReleased _ _ => 9
  end.
Definition ev_payload (ev : event) : option diag :=
  let some u l := if u =? 0 then None else Some (Manufacturer u l) in
  match ev with
  | EvProcess u len (Some l) => some u (firstn (Z.to_nat len) l)
  | EvProcess u _ None => some u []
  | EvDiagnosis i => match content i with Standard _ _ => Some (content i) | Manufacturer u l => some u l end
  | EvGone u => some u []
  | _ => None
  end.
Definition ev_idents (d : dev) (p : place) (ev : event) : option (Z * Z) :=
  let '(a, s, t) := p in
  match ev with
  | EvProcess _ _ _ | EvDiagnosis _ | EvGone _ =>
    match mod_at d a s, sub_in d a s t with Some m, Some y => Some (m, rs_ident y) | _, _ => None end
  | EvPull => Some (0, 0)
  | EvPlug m k | EvPlugWrong m k | EvReleased m k => Some (m, k)
  end.

(** The diagnoses of a subslot as they are summed up in an alarm: the flags, and the
    maintenance status with "required" in bit 0, "demanded" in bit 1 and the qualifiers in
    the bits 3 to 31. *)
Definition standard (x : diag) : bool := match x with Standard _ _ => true | Manufacturer _ _ => false end.
Definition maintenance (x : diag) : Z :=
  match x with
  | Manufacturer _ _ => 0
  | Standard _ s => 8 * (qualifier s / 8) + (if is_required x then 1 else 0) + (if is_demanded x then 2 else 0)
  end.
Definition status (l : list diag) : Z := fold_right Z.lor 0 (map maintenance l).
(** Whether the connection owns the submodule. *)
Definition owns (y : rsub) (ar : nat) : bool := match rs_own y, rs_owner y with (Ioc | Ios), Some o => Nat.eqb o ar | _, _ => false end.

(** The frame as a controller reads it: addresses, VLAN tag with priority and identifier,
    EtherType, frame id, references, kind, version, window size, TACK, sequence numbers and
    the length of the rest. *)
Record head := mkHead { f_to : list Z; f_from : list Z; f_tpid : Z; f_prio : Z; f_vlan : Z; f_ether : Z; f_id : Z;
  f_dst : Z; f_src : Z; f_kind : Z; f_version : Z; f_window : Z; f_tack : Z; f_send : Z; f_ack : Z; f_rest : Z }.
Definition get_head : reader head :=
  rdo to <- rlist get_byte 6; rdo from <- rlist get_byte 6; rdo tpid <- get_u16; rdo tci <- get_u16; rdo et <- get_u16; rdo id <- get_u16;
  rdo d <- get_u16; rdo s <- get_u16; rdo x <- get_byte; rdo y <- get_byte; rdo n <- get_u16; rdo a <- get_u16; rdo r <- get_u16;
  rret (mkHead to from tpid (tci / 8192) (tci mod 8192) et id d s (x mod 16) (x / 16) (y mod 16) (y / 16) n a r).

(** An alarm: type, place, ident numbers (not in an acknowledge), sequence number, the
    flags channel, manufacturer, submodule and AR diagnosis. *)
Record aflags := mkAflags { g_seq : Z; g_channel : bool; g_manuf : bool; g_submod : bool; g_ar : bool }.
Definition get_flags : reader aflags :=
  rdo x <- get_u16;
  rret (mkAflags (x mod 2048) (x / 2048 mod 2 =? 1) (x / 4096 mod 2 =? 1) (x / 8192 mod 2 =? 1) (x / 32768 mod 2 =? 1)).
(** The payload: maintenance status, if there is one, and diagnoses. *)
Definition apayload : Type := option (option (bhead * Z) * list diag).
Definition get_payload (n : nat) : reader apayload :=
  if Nat.eqb n 0 then rret None
  else
    rdo u <- get_u16;
    if u =? 33024 (* 0x8100: maintenance *) then
      rdo h <- get_block_header; rdo _ <- get_byte; rdo _ <- get_byte; rdo v <- get_u32;
      rdo u2 <- get_u16; rdo l <- get_diags u2 (n - 16); rret (Some (Some (h, v), l))
    else rdo l <- get_diags u (n - 2); rret (Some (None, l)).
Record note := mkNote { t_block : bhead; t_type : Z; t_place : place; t_module : Z; t_submodule : Z; t_flags : aflags; t_payload : apayload }.
Definition get_note : reader note :=
  rdo h <- get_block_header; rdo ty <- get_u16; rdo a <- get_u32; rdo s <- get_u16; rdo t <- get_u16;
  rdo m <- get_u32; rdo k <- get_u32; rdo g <- get_flags; rdo p <- get_payload (Z.to_nat (b_length h) - 22);
  rret (mkNote h ty (a, s, t) m k g p).
Definition get_acked : reader (bhead * Z * place * aflags * pnio) :=
  rdo h <- get_block_header; rdo ty <- get_u16; rdo a <- get_u32; rdo s <- get_u16; rdo t <- get_u16; rdo g <- get_flags;
  rdo c <- get_byte; rdo d <- get_byte; rdo c1 <- get_byte; rdo c2 <- get_byte; rret (h, ty, (a, s, t), g, mkPnio c d c1 c2).
Definition get_error : reader pnio := rdo c <- get_byte; rdo d <- get_byte; rdo c1 <- get_byte; rdo c2 <- get_byte; rret (mkPnio c d c1 c2).
Definition with_head {A} (m : reader A) : reader (head * A) := rdo h <- get_head; rdo x <- m; rret (h, x).

(** [f] puts a frame into the buffer from which [get] delivers [x], to its end. *)
Definition on_wire {A} (f : writer) (get : reader A) (x : A) : Prop :=
  forall b, 1500 <= Z.of_nat (length b) -> exists fr, sent b f = Ok fr /\ (length fr <= 1500)%nat /\
  get (mkRd (Some fr) (Z.of_nat (length fr)) true POk 0) = Ok (x, mkRd (Some fr) (Z.of_nat (length fr)) true POk (Z.of_nat (length fr))).

(** The head of a frame: VLAN priority 6 and frame id 0xFC01 for high priority, 5 and 0xFE01
    for low priority. *)
Definition head_of (high : bool) (da sa : list Z) (dst src kind tack send ack rest : Z) : head :=
  mkHead da sa 33024 (if high then 6 else 5) 0 34962 (if high then 64513 else 65025) dst src kind 1 1 tack send ack rest.

(** The payload of a notification and how long it is. *)
Definition told_payload (st : Z) (x : option diag) : apayload :=
  match x with
  | None => None
  | Some (Standard u s) => Some (if st =? 0 then None else Some (mkBhead 3840 8 1 0, st), [in_format (Standard u s)])
  | Some y => Some (None, [y])
  end.
Definition told_size (st : Z) (x : option diag) : nat :=
  match x with
  | None => 0%nat
  | Some y => ((if standard y && negb (st =? 0)%Z then 14 else 0) + 2 + diag_size y)%nat
  end.

(** The flags and the maintenance status when an alarm of the connection [ar] is sent: [y] is
    the submodule that is plugged then, [l] are the diagnoses stored for its subslot. *)
Definition flags_of (y : option rsub) (ar : nat) (l : list diag) (n : Z) : aflags :=
  match y with
  | None => mkAflags n false false false false
  | Some y => mkAflags n (existsb standard l) (existsb (fun x => negb (standard x)) l) (existsb is_fault l) (owns y ar && existsb is_fault l)
  end.
Definition status_of (y : option rsub) (l : list diag) : Z := match y with None => 0 | Some _ => status l end.
Definition bytes6 (l : list Z) : Prop := length l = 6%nat.

(** The numbers given are of their types, the payload is as long as said. *)
Definition ev_ok (d : dev) (p : place) (ev : event) : Prop :=
  (forall m k, ev_idents d p ev = Some (m, k) -> 0 <= m < 4294967296 /\ 0 <= k < 4294967296) /\
  match ev with
  | EvProcess u len (Some l) => 0 <= u < 65536 /\ 0 <= len <= Z.of_nat (length l)
  | EvProcess u len None => 0 <= u < 65536 /\ 0 <= len
  | EvDiagnosis i => diag_typed (content i)
  | EvGone u => 0 <= u < 32768
  | _ => True
  end.
(** Sizes as the build allows them (pf_alarm.c:86-94): [m] is PNET_MAX_DIAG_MANUF_DATA_SIZE;
    pf_types.h:961-980 with alignment to 4 bytes. *)
Definition item_size (m : Z) : Z := 4 * ((Z.max 16 (2 + m) + 3) / 4) + 8.
Definition build_ok (z : asizes) : Prop := exists m, 0 <= m <= 1396 /\ z_item z = item_size m /\ z_item z <= z_payload z <= 1408.

(** How much the device takes as the length of the payload when it decides. *)
Definition counted_size (z : asizes) (ev : event) : Z :=
  match ev with
  | EvProcess _ len _ => len
  | EvDiagnosis i => match content i with Standard _ _ => z_item z | Manufacturer _ l => Z.of_nat (length l) end
  | _ => 0
  end.

(** * Frames *)

Definition fenc (f : writer) (bs : list Z) : Prop :=
  forall b pos, 0 <= pos -> pos + Z.of_nat (length bs) <= 1500 -> 1500 <= Z.of_nat (length b) ->
  f (mkWr (Some b) 1500 pos) = Ok (mkWr (Some (put_at b (Z.to_nat pos) bs)) 1500 (pos + Z.of_nat (length bs))).
Lemma fenc_of : forall f bs, enc f bs -> fenc f bs.
Proof. intros f bs E b pos P L M. apply E; lia. Qed.
Lemma fenc_seq : forall f g x y, fenc f x -> fenc g y -> fenc (f ;; g) (x ++ y).
Proof.
  intros f g x y F G b pos P L M. unfold wseq. rewrite app_length in L. rewrite F by lia. cbn [obind].
  rewrite G; [|lia|lia|rewrite put_at_length; lia]. rewrite app_length. f_equal. f_equal; [|lia].
  replace (Z.to_nat (pos + Z.of_nat (length x))) with (Z.to_nat pos + length x)%nat by lia. rewrite put_at_app by lia. reflexivity.
Qed.
Lemma fenc_block : forall ty body bs, 0 <= ty < 65536 -> fenc body bs -> fenc (put_block true ty body) (eblock true ty bs).
Proof.
  intros ty body bs T B b pos P L M. unfold put_block. cbn [w_pos].
  assert (Le : length (eblock true ty bs) = (6 + length bs)%nat) by (unfold eblock; rewrite !app_length, !e16_length; reflexivity).
  rewrite Le in L.
  assert (EH : enc (put_block_header true ty 0 1 0) (e16 true ty ++ e16 true (0 + 2) ++ [1; 0])) by (apply enc_header; unfold byte; lia).
  unfold wseq. rewrite EH by (rewrite ?app_length, ?e16_length; cbn [length]; lia). cbn [obind].
  assert (LH : length (e16 true ty ++ e16 true (0 + 2) ++ [1; 0]) = 6%nat) by (rewrite !app_length, !e16_length; reflexivity).
  rewrite LH. rewrite B by (rewrite ?put_at_length; lia). cbn [obind].
  replace (Z.to_nat (pos + Z.of_nat 6)) with (Nat.add (Z.to_nat pos) (length (e16 true ty ++ e16 true (0 + 2) ++ [1; 0]))) by lia.
  rewrite put_at_app by lia. unfold put_block_len. cbn [w_pos w_buf w_len].
  replace (u16 (pos + Z.of_nat 6 + Z.of_nat (length bs) - (pos + 4))) with (2 + Z.of_nat (length bs)) by (rewrite u16_id; lia).
  rewrite (u16_id (pos + 2)) by lia.
  assert (E2 : enc (put_u16 true (2 + Z.of_nat (length bs))) (e16 true (2 + Z.of_nat (length bs)))) by (apply enc_u16; lia).
  rewrite E2 by (rewrite ?put_at_length, ?app_length, ?e16_length; rewrite ?app_length, ?e16_length; cbn [length]; lia).
  cbn [obind w_buf w_len]. rewrite <- !app_assoc.
  replace (Z.to_nat (pos + 2)) with (Z.to_nat pos + length (e16 true ty))%nat by (rewrite e16_length; lia).
  rewrite put_at_over; [|rewrite !e16_length; reflexivity|rewrite !app_length, !e16_length; cbn [length]; lia].
  rewrite Le. unfold eblock. replace (pos + Z.of_nat 6 + Z.of_nat (length bs)) with (pos + Z.of_nat (6 + length bs)) by lia. reflexivity.
Qed.
Lemma fenc_var : forall f bs, fenc f bs -> fenc (put_var true f) (e16 true (Z.of_nat (length bs)) ++ bs).
Proof.
  intros f bs F b pos P L M. rewrite app_length, e16_length in L. unfold put_var. cbn [w_pos].
  assert (E0 : fenc (put_u16 true 0 ;; f) (e16 true 0 ++ bs)) by (apply fenc_seq; [apply fenc_of, enc_u16; lia|exact F]).
  rewrite E0 by (rewrite ?app_length, ?e16_length; lia). cbn [obind w_pos w_buf w_len]. rewrite app_length, e16_length.
  replace (u16 (pos + Z.of_nat (2 + length bs) - (pos + 2))) with (Z.of_nat (length bs)) by (rewrite u16_id; lia).
  assert (E2 : enc (put_u16 true (Z.of_nat (length bs))) (e16 true (Z.of_nat (length bs)))) by (apply enc_u16; lia).
  rewrite E2 by (rewrite ?put_at_length, ?e16_length; rewrite ?app_length, ?e16_length; lia). cbn [obind w_buf w_len].
  pose proof (put_at_over b (Z.to_nat pos) [] (e16 true 0) (e16 true (Z.of_nat (length bs))) bs) as O. cbn [app length] in O. rewrite Nat.add_0_r in O.
  rewrite O by (rewrite ?app_length, ?e16_length; lia). rewrite app_length, e16_length. reflexivity.
Qed.
Lemma fenc_with_len : forall f bs, fenc f bs -> fenc (with_len frame_buffer_size f) bs.
Proof.
  intros f bs F b pos P L M. unfold with_len. cbn [w_buf w_pos w_len]. change frame_buffer_size with 1500.
  rewrite F by assumption. cbn [obind w_buf w_pos w_len]. reflexivity.
Qed.
Lemma wire_of : forall A f (get : reader A) x bs, fenc f bs -> Z.of_nat (length bs) <= 1500 -> dec true true get bs x -> on_wire f get x.
Proof.
  intros A f get x bs F L D b M. exists bs. unfold sent. change frame_buffer_size with 1500. rewrite F by lia. cbn [obind w_buf w_pos].
  rewrite Z.add_0_l, Nat2Z.id. change (Z.to_nat 0) with 0%nat. unfold put_at. cbn [firstn app]. rewrite firstn_app, firstn_all, Nat.sub_diag. cbn [firstn]. rewrite app_nil_r.
  split; [reflexivity|]. split; [lia|]. pose proof (D [] [] (Z.of_nat (length bs))) as H. cbn [app length Nat.add] in H. rewrite app_nil_r in H. apply H; lia.
Qed.

(** * The head *)

Definition efx (fx : afixed) : list Z :=
  e16 true (a_dst fx) ++ e16 true (a_src fx) ++ [a_type fx + a_version fx * 16] ++ [a_window fx + a_tack fx * 16] ++ e16 true (a_send fx) ++ e16 true (a_ack fx).
Lemma enc_efx : forall fx, afixed_ok fx -> enc (put_alarm_fixed true fx) (efx fx).
Proof.
  intros a (D & S1 & T & V & W & K & N & A). unfold put_alarm_fixed, efx.
  rewrite (put_bits_val (a_type a) 4 0 0) by lia. rewrite (put_bits_val (a_window a) 4 0 0) by lia.
  change (2 ^ 0) with 1. rewrite !Z.mul_1_r, !Z.add_0_l. rewrite (put_bits_val (a_version a) 4 4) by lia. rewrite (put_bits_val (a_tack a) 1 4) by lia.
  change (2 ^ 4) with 16. rewrite !u8_id by lia.
  apply enc_seq; [apply enc_u16; exact D|]. apply enc_seq; [apply enc_u16; exact S1|]. apply enc_seq; [apply enc_byte; unfold byte; lia|].
  apply enc_seq; [apply enc_byte; unfold byte; lia|]. apply enc_seq; [apply enc_u16; exact N|apply enc_u16; exact A].
Qed.

Definition eframe (high : bool) (da sa : list Z) (fx : afixed) (bs : list Z) : list Z :=
  da ++ sa ++ e16 true 33024 ++ e16 true (if high then 49152 else 40960) ++ e16 true 34962 ++ e16 true (if high then 64513 else 65025) ++
  efx fx ++ e16 true (Z.of_nat (length bs)) ++ bs.
Lemma eframe_length : forall high da sa fx bs, bytes6 da -> bytes6 sa -> length (eframe high da sa fx bs) = (32 + length bs)%nat.
Proof. intros high da sa fx bs A B. unfold eframe, efx. rewrite !app_length, A, B, !e16_length. cbn [length]. lia. Qed.
Lemma fenc_frame : forall high da sa dst src send exp_o send_o fx var bs, afixed_ok fx -> fenc var bs ->
  fenc (put_frame sa (aend_for high da dst src send exp_o send_o) fx var) (eframe high da sa fx bs).
Proof.
  intros high da sa dst src send exp_o send_o fx var bs FX V. unfold put_frame, eframe, aend_for.
  replace (e_da (if high then _ else _)) with da by (destruct high; reflexivity).
  replace (u16 _) with (if high then 49152 else 40960) by (destruct high; reflexivity).
  replace (e_id (if high then _ else _)) with (if high then 64513 else 65025) by (destruct high; reflexivity).
  repeat (apply fenc_seq; [first [apply fenc_of, enc_mem|apply fenc_of, enc_u16; destruct high; lia|apply fenc_of, enc_efx; exact FX]|]).
  apply fenc_var. exact V.
Qed.
Lemma dec_frame : forall A high da sa fx bs (m : reader A) x, bytes6 da -> bytes6 sa -> afixed_ok fx -> Z.of_nat (length bs) < 65536 -> dec true true m bs x ->
  dec true true (with_head m) (eframe high da sa fx bs)
    (mkHead da sa 33024 (if high then 6 else 5) 0 34962 (if high then 64513 else 65025) (a_dst fx) (a_src fx) (a_type fx) (a_version fx) (a_window fx) (a_tack fx)
       (a_send fx) (a_ack fx) (Z.of_nat (length bs)), x).
Proof.
  intros A high da sa fx bs m x D1 D2 (D & S1 & T & V & W & K & N & Q) L M. unfold with_head, eframe, efx.
  match goal with |- dec _ _ _ ?l _ => replace l with ((da ++ sa ++ e16 true 33024 ++ e16 true (if high then 49152 else 40960) ++ e16 true 34962 ++ e16 true (if high then 64513 else 65025) ++
    e16 true (a_dst fx) ++ e16 true (a_src fx) ++ [a_type fx + a_version fx * 16] ++ [a_window fx + a_tack fx * 16] ++ e16 true (a_send fx) ++ e16 true (a_ack fx) ++
    e16 true (Z.of_nat (length bs))) ++ bs) by (rewrite <- !app_assoc; reflexivity) end.
  match goal with |- dec _ _ _ _ (?h, x) => apply (dec_bind _ _ true true true get_head (fun hh => rdo xx <- m; rret (hh, xx)) _ _ h); [|eapply dec_last; [exact M|reflexivity]] end.
  pose proof (dec_bytes da) as B1. rewrite D1 in B1. pose proof (dec_bytes sa) as B2. rewrite D2 in B2.
  unfold get_head. eapply dec_bind; [exact B1|]. eapply dec_bind; [exact B2|].
  eapply dec_bind; [apply dec_u16; lia|]. eapply dec_bind; [apply dec_u16; destruct high; lia|]. eapply dec_bind; [apply dec_u16; lia|].
  eapply dec_bind; [apply dec_u16; destruct high; lia|]. eapply dec_bind; [apply dec_u16; exact D|]. eapply dec_bind; [apply dec_u16; exact S1|].
  eapply dec_bind; [apply dec_byte|]. eapply dec_bind; [apply dec_byte|]. eapply dec_bind; [apply dec_u16; exact N|]. eapply dec_bind; [apply dec_u16; exact Q|].
  eapply dec_last; [apply dec_u16; lia|]. rewrite !Z.div_add, !Z.mod_add by lia.
  rewrite (Z.div_small (a_type fx)), (Z.div_small (a_window fx)), (Z.mod_small (a_type fx)), (Z.mod_small (a_window fx)) by lia. rewrite !Z.add_0_l.
  destruct high; reflexivity.
Qed.

(** * The summary of the diagnoses *)

Lemma lists_good : forall max maxm n st, (0 < max)%nat -> dreach max maxm n known st -> forall a s t, all_good (lists_of max st a s t).
Proof.
  intros max maxm n st M R a s t. destruct (reach_ok _ _ _ _ R) as [R2 _]. destruct (reach_inv M R2) as (Ls & F & I & _).
  unfold lists_of. destruct (find_cell (a, s, t) (cells st)) as [c|] eqn:E; [|constructor]. destruct (find_cell_some _ _ E) as (Hc & Uc & _).
  destruct (walk_items max (items st) (c_list (DiagModel.cell_at c st))) as [l|] eqn:W; [|constructor].
  assert (EQ : l = map (items st) (Ls c)).
  { revert W. rewrite (@walk_items_chain max (items st) (c_list (DiagModel.cell_at c st)) (Ls c)); [intros Q; injection Q as <-; reflexivity| |].
    - apply (l_chain (i_lists I)). exact Hc.
    - pose proof (len_bound (i_lists I) Hc). lia. }
  subst l. eapply good_items; [exact I|exact Hc|apply incl_refl].
Qed.

Lemma bits_low : forall k, 0 <= k -> Z.lor (8 * k) 1 = 8 * k + 1 /\ Z.lor (8 * k) 2 = 8 * k + 2 /\ Z.lor (8 * k + 1) 2 = 8 * k + 3.
Proof. intros k K. destruct k as [|k|k]; [repeat split|repeat split|lia]. Qed.
Lemma maint_bits : forall m q (r dm : bool), 0 <= q ->
  (let m1 := Z.lor m (Z.land q (Z.lnot 7)) in let m2 := if r then Z.lor m1 1 else m1 in if dm then Z.lor m2 2 else m2) =
  Z.lor m (8 * (q / 8) + (if r then 1 else 0) + (if dm then 2 else 0)).
Proof.
  intros m q r dm Q. cbv zeta. assert (E : Z.land q (Z.lnot 7) = 8 * (q / 8)).
  { rewrite <- Z.ldiff_land. change 7 with (Z.ones 3). rewrite Z.ldiff_ones_r by lia. rewrite Z.shiftl_mul_pow2, Z.shiftr_div_pow2 by lia. change (2 ^ 3) with 8. lia. }
  rewrite E. assert (K : 0 <= q / 8) by (apply Z.div_pos; lia). destruct (bits_low _ K) as (B1 & B2 & B3).
  destruct r, dm.
  - rewrite <- !Z.lor_assoc, (Z.lor_assoc (8 * (q / 8)) 1 2), B1, B3. f_equal. lia.
  - rewrite <- !Z.lor_assoc, B1. f_equal. lia.
  - rewrite <- !Z.lor_assoc, B2. f_equal. lia.
  - rewrite !Z.add_0_r. reflexivity.
Qed.
Lemma add_item_spec : forall same x i, good_item i ->
  add_item same x i = mkAspec (sp_channel x || standard (content i)) (sp_manuf x || negb (standard (content i))) (sp_submod x || is_fault (content i))
    (sp_ar x || same && is_fault (content i)) (Z.lor (sp_maint x) (maintenance (content i))).
Proof.
  intros same x i [_ G]. unfold add_item, content. change usi_channel with 32768. destruct (Z.ltb_spec (d_usi i) 32768) as [U|U].
  - cbn [standard negb maintenance is_fault has_severity]. unfold is_fault. cbn [has_severity Z.eqb]. rewrite !orb_false_r, !orb_true_r, andb_true_r, Z.lor_0_r. reflexivity.
  - destruct (G U) as (P & Q & _). destruct (good_fields P) as (_ & _ & _ & E & _). rewrite E. change (1 =? sp_appears) with true. cbv zeta.
    cbn [standard negb andb]. rewrite orb_true_r, orb_false_r.
    assert (S1 : severity_is m_fault q_mask_fault (d_std i) = is_fault (Standard (d_usi i) (d_std i))) by (unfold is_fault, has_severity; apply (@severity_spec 1%nat ltac:(lia)); auto).
    assert (S2 : severity_is m_required q_mask_required (d_std i) = is_required (Standard (d_usi i) (d_std i))) by (unfold is_required, has_severity; apply (@severity_spec 1%nat ltac:(lia)); auto).
    assert (S3 : severity_is m_demanded q_mask_demanded (d_std i) = is_demanded (Standard (d_usi i) (d_std i))) by (unfold is_demanded, has_severity; apply (@severity_spec 1%nat ltac:(lia)); auto).
    rewrite S1, S2, S3, (andb_comm same). f_equal. unfold maintenance. exact (maint_bits (sp_maint x) (qualifier (d_std i)) _ _ Q).
Qed.
Lemma summed : forall same l x, all_good l ->
  fold_left (add_item same) l x = mkAspec (sp_channel x || existsb standard (map content l)) (sp_manuf x || existsb (fun y => negb (standard y)) (map content l))
    (sp_submod x || existsb is_fault (map content l)) (sp_ar x || same && existsb is_fault (map content l)) (Z.lor (sp_maint x) (status (map content l))).
Proof.
  intros same l. induction l as [|i l IH]; intros x A.
  - cbn [fold_left map existsb]. unfold status. cbn [map fold_right]. rewrite andb_false_r, !orb_false_r, Z.lor_0_r. destruct x; reflexivity.
  - inversion A as [|? ? [_ G] A']; subst. cbn [fold_left map existsb]. rewrite IH by exact A'. rewrite (add_item_spec same x i G).
    cbn [sp_channel sp_manuf sp_submod sp_ar sp_maint]. unfold status. cbn [map fold_right]. rewrite <- !orb_assoc, <- Z.lor_assoc, andb_orb_distrib_r. reflexivity.
Qed.
Lemma lor_u32 : forall a b, 0 <= a < 4294967296 -> 0 <= b < 4294967296 -> 0 <= Z.lor a b < 4294967296.
Proof.
  intros a b A B. assert (N : 0 <= Z.lor a b) by (apply Z.lor_nonneg; lia). split; [exact N|].
  assert (E : Z.shiftr (Z.lor a b) 32 = 0) by (rewrite Z.shiftr_lor, !Z.shiftr_div_pow2 by lia; change (2 ^ 32) with 4294967296; rewrite !Z.div_small by lia; reflexivity).
  rewrite Z.shiftr_div_pow2 in E by lia. change (2 ^ 32) with 4294967296 in E. apply Z.div_small_iff in E; lia.
Qed.
Lemma status_u32 : forall l, (forall x, In x l -> diag_typed x) -> 0 <= status l < 4294967296.
Proof.
  induction l as [|x l IH]; intros H; unfold status; cbn [map fold_right]; [lia|]. apply lor_u32; [|apply IH; intros y I; apply H; right; exact I].
  specialize (H x (or_introl eq_refl)). unfold maintenance. destruct x as [u s|u d]; [|lia]. destruct H as (_ & _ & _ & _ & _ & _ & Q).
  pose proof (Z.div_mod (qualifier s) 8 ltac:(lia)). pose proof (Z.mod_pos_bound (qualifier s) 8 ltac:(lia)).
  assert (qualifier s / 8 < 536870912) by (apply Z.div_lt_upper_bound; lia). pose proof (Z.div_pos (qualifier s) 8 ltac:(lia) ltac:(lia)).
  destruct (is_required (Standard u s)), (is_demanded (Standard u s)); lia.
Qed.

(** * The payload *)

Definition epayload (v : Z) (x : option diag) : list Z :=
  match x with
  | None => []
  | Some (Standard u s) =>
    (if v =? 0 then [] else e16 true 33024 ++ eblock true 3840 ([0] ++ [0] ++ e32 true v)) ++ e16 true u ++ ediag (Standard u s)
  | Some (Manufacturer u l) => e16 true u ++ l
  end.
Lemma epayload_length : forall v x, length (epayload v x) = told_size v x.
Proof.
  intros v [[u s|u l]|]; [| |reflexivity]; unfold epayload, told_size.
  - rewrite !app_length, ediag_length, e16_length. cbn [standard andb]. destruct (v =? 0); [cbn [negb length]; lia|].
    unfold eblock. rewrite !app_length, !e16_length, e32_length. cbn [negb length]. lia.
  - rewrite app_length, e16_length. reflexivity.
Qed.

(** How the payload is kept until it is sent. *)
Definition kept (usi len : Z) (p : option pdata) (x : option diag) : Prop :=
  match x with
  | None => usi = 0
  | Some (Standard u s) => usi = u /\ exists i, p = Some (PItem i) /\ content i = Standard u s
  | Some (Manufacturer u l) => usi = u /\ u <> 0 /\ len = Z.of_nat (length l) /\ (p = Some (PBytes l) \/ l = [])
  end.
Definition payload_typed (x : option diag) : Prop := match x with None => True | Some y => diag_typed y end.
Lemma enc_payload : forall usi len v p x, kept usi len p x -> payload_typed x -> 0 <= v < 4294967296 ->
  enc (put_payload true usi len v p) (epayload v x).
Proof.
  intros usi len v p x K T V. unfold put_payload. destruct x as [[u s|u l]|]; cbn [kept payload_typed] in *.
  - destruct K as (-> & i & -> & C). pose proof T as (U & _).
    replace (u =? 0) with false by (symmetry; apply Z.eqb_neq; destruct U as [U|[U|[U|[]]]]; lia).
    replace (u =? 33024) with false by (symmetry; apply Z.eqb_neq; destruct U as [U|[U|[U|[]]]]; lia).
    replace ((u =? usi_channel) || (u =? usi_extended) || (u =? usi_qualified)) with true by (destruct U as [U|[U|[U|[]]]]; subst u; reflexivity).
    unfold epayload. apply enc_seq.
    + destruct (Z.eqb_spec v 0); [exact enc_skip|]. unfold put_maint_status. apply enc_seq; [apply enc_u16; lia|].
      apply enc_block; [lia|rewrite !app_length, e32_length; cbn [length]; lia|]. repeat (apply enc_seq; [apply enc_byte; unfold byte; lia|]). apply enc_u32. exact V.
    + rewrite <- C in *. assert (E : d_usi i = u).
      { unfold content in C. destruct (d_usi i <? 32768); [discriminate|]. injection C as E _. exact E. }
      change (put_diag_item true i true) with (put_u16 true (d_usi i) ;; (fun w => put_diag_item true i false w)). rewrite E.
      apply enc_seq; [apply enc_u16; destruct U as [U|[U|[U|[]]]]; lia|]. apply (enc_ext _ (put_diag_item true i false)); [reflexivity|]. apply enc_item. exact T.
  - destruct K as (-> & N & -> & P). cbn [diag_typed] in T.
    replace (u =? 0) with false by (symmetry; apply Z.eqb_neq; exact N). replace (u =? 33024) with false by (symmetry; apply Z.eqb_neq; lia).
    replace ((u =? usi_channel) || (u =? usi_extended) || (u =? usi_qualified)) with false
      by (symmetry; unfold usi_channel, usi_extended, usi_qualified; rewrite !orb_false_iff; repeat split; apply Z.eqb_neq; lia).
    apply enc_seq; [apply enc_u16; lia|]. destruct (Z.ltb_spec 0 (Z.of_nat (length l))) as [L|L].
    + destruct P as [-> | ->]; [|cbn [length] in L; lia]. rewrite Nat2Z.id, firstn_all. apply enc_mem.
    + destruct l as [|y l]; [exact enc_skip|cbn [length] in L; lia].
  - rewrite K. exact enc_skip.
Qed.
Lemma dec_payload : forall v x, payload_typed x -> 0 <= v < 4294967296 -> dec true true (get_payload (length (epayload v x))) (epayload v x) (told_payload v x).
Proof.
  intros v x T V. pose proof (epayload_length v x) as L. rewrite L. unfold get_payload. destruct x as [[u s|u l]|]; cbn [payload_typed] in T; [| |apply dec_ret].
  - pose proof T as (U & _). unfold epayload, told_payload, told_size. cbn [standard andb].
    assert (DD : dec true true (get_diags u (diag_size (Standard u s))) (ediag (Standard u s)) [in_format (Standard u s)]).
    { pose proof (dec_diags u [Standard u s]) as D. cbn [flat_map map] in D. rewrite app_nil_r, ediag_length in D. apply D.
      - split; [intros x [<-|[]]; split; [reflexivity|exact T]|cbn [length]; lia].
      - intros E. apply (f_equal (@length Z)) in E. rewrite ediag_length in E. unfold diag_size in E. destruct (u =? 32768), (u =? 32770); discriminate. }
    assert (NU : u <> 33024 /\ 0 <= u < 65536) by (destruct U as [U|[U|[U|[]]]]; lia).
    destruct (Z.eqb_spec v 0) as [E|E]; cbn [negb].
    + cbn [app Nat.add Nat.eqb]. eapply dec_bind; [apply dec_u16; lia|]. destruct (Z.eqb_spec u 33024); [lia|].
      replace (S (S (diag_size (Standard u s))) - 2)%nat with (diag_size (Standard u s)) by lia. eapply dec_last; [exact DD|reflexivity].
    + cbn [Nat.add Nat.eqb]. rewrite <- app_assoc. eapply dec_bind; [apply dec_u16; lia|]. cbn [Z.eqb Pos.eqb].
      replace (eblock true 3840 ([0] ++ [0] ++ e32 true v) ++ e16 true u ++ ediag (Standard u s)) with
        ((e16 true 3840 ++ e16 true 8 ++ [1; 0]) ++ [0] ++ [0] ++ e32 true v ++ e16 true u ++ ediag (Standard u s)).
      2: { unfold eblock. replace (2 + Z.of_nat (length ([0] ++ [0] ++ e32 true v))) with 8 by (rewrite !app_length, e32_length; reflexivity). rewrite <- !app_assoc. reflexivity. }
      eapply dec_bind; [apply dec_header; lia|]. eapply dec_bind; [apply dec_byte|]. eapply dec_bind; [apply dec_byte|]. eapply dec_bind; [apply dec_u32; exact V|].
      eapply dec_bind; [apply dec_u16; lia|].
      match goal with |- context [get_diags u ?n] => replace n with (diag_size (Standard u s)) by lia end. eapply dec_last; [exact DD|reflexivity].
  - unfold epayload, told_payload, told_size. cbn [standard andb negb Nat.add Nat.eqb diag_size]. cbn [diag_typed] in T. eapply dec_bind; [apply dec_u16; lia|].
    destruct (Z.eqb_spec u 33024); [lia|]. unfold get_diags. destruct (Z.eqb_spec u 32768); [lia|]. destruct (Z.eqb_spec u 32770); [lia|]. destruct (Z.eqb_spec u 32771); [lia|].
    replace (S (S (length l)) - 2)%nat with (length l) by lia. eapply dec_last; [eapply dec_last; [apply dec_bytes|reflexivity]|reflexivity].
Qed.

(** * What is put into the queue *)

Lemma send_alarm_inv : forall z c ty high a s t m k usi len p q, send_alarm z c ty high a s t m k usi len p = Ok (Some q) ->
  len <= z_payload z /\ exists r, q = mkQueued high (u16 ty) a s t m (u16 k) usi len r /\
  (0 < len -> exists x y, p = Some x /\ copied z len x = Ok y /\ r = Some y) /\ (len <= 0 -> r = None).
Proof.
  intros z c ty high a s t m k usi len p q. unfold send_alarm. destruct (negb (n_global c) || negb (n_enable c)); [discriminate|].
  destruct (Z.ltb_spec (z_payload z) len); [discriminate|]. destruct (Z.ltb_spec (n_max c) len); [discriminate|]. cbv zeta. destruct (Z.ltb_spec 0 len) as [L|L].
  - destruct p as [x|]; [|discriminate]. destruct (copied z len x) as [y| |] eqn:E; cbn [obind]; [|discriminate|discriminate].
    intros Q. injection Q as <-. split; [lia|]. exists (Some y). split; [reflexivity|]. split; [intros _; exists x, y; auto|lia].
  - intros Q. injection Q as <-. split; [lia|]. exists None. split; [reflexivity|]. split; [lia|reflexivity].
Qed.
Lemma idents_dev : forall na ns nt d a s t, dev_ok na ns nt d -> module_ident d a s = mod_at d a s /\ subslot_full d a s t = sub_in d a s t.
Proof.
  intros na ns nt d a s t D. split.
  - rewrite (mod_at_slot na ns nt) by exact D. reflexivity.
  - rewrite (sub_in_cell na ns nt) by exact D. unfold subslot_full, get_slot_full, IdentProps.cell. destruct (get_api d a) as [x|]; [|reflexivity]. destruct (get_slot x s); reflexivity.
Qed.
Lemma with_idents_inv : forall na ns nt d a s t f q, dev_ok na ns nt d -> with_idents d a s t f = Ok (Some q) ->
  exists m y, mod_at d a s = Some m /\ sub_in d a s t = Some y /\ f m (rs_ident y) = Ok (Some q).
Proof.
  intros na ns nt d a s t f q D H. destruct (idents_dev na ns nt d a s t D) as (E1 & E2). unfold with_idents, submodule_ident in H. rewrite E1, E2 in H.
  destruct (mod_at d a s) as [m|]; [|discriminate]. destruct (sub_in d a s t) as [y|]; [|discriminate]. cbn [option_map] in H. exists m, y. auto.
Qed.

Lemma item_size_pos : forall z, build_ok z -> 0 < z_item z.
Proof. intros z (m & M & E & _). rewrite E. unfold item_size. assert (0 <= (Z.max 16 (2 + m) + 3) / 4) by (apply Z.div_pos; lia). lia. Qed.

Definition raised (c : aconn) (d : dev) (p : place) (ev : event) (q : queued) (m k : Z) : Prop :=
  ev_idents d p ev = Some (m, k) /\ q_high q = ev_high ev /\ q_type q = ev_type c p ev /\ (q_api q, q_slot q, q_sub q) = p /\
  q_module q = m /\ q_submodule q = k mod 65536 /\ kept (q_usi q) (q_len q) (q_data q) (ev_payload ev) /\ payload_typed (ev_payload ev) /\
  match ev_payload ev with Some (Manufacturer _ l) => Z.of_nat (length l) <= 1408 | _ => True end.
Lemma raise_inv : forall na ns nt z c d p ev q, dev_ok na ns nt d -> build_ok z -> ev_ok d p ev -> raise z c d p ev = Ok (Some q) ->
  exists m k, raised c d p ev q m k.
Proof.
  intros na ns nt z c d [[a s] t] ev q D B (_ & T) H. pose proof (item_size_pos z B) as ZP. assert (ZB : z_payload z <= 1408) by (destruct B as (mm & _ & _ & B); lia). destruct ev as [u len x|i|u| |m k|m k|m k]; cbn [raise] in H.
  - unfold send_process in H. change usi_channel with 32768 in H. destruct (Z.leb_spec 32768 u) as [U|U]; [discriminate|].
    destruct (with_idents_inv na ns nt _ _ _ _ _ _ D H) as (m & y & E1 & E2 & F). apply send_alarm_inv in F. destruct F as (L & r & -> & F1 & F2).
    exists m, (rs_ident y). unfold raised. cbn [ev_idents ev_high ev_type ev_payload q_high q_type q_api q_slot q_sub q_module q_submodule q_usi q_len q_data]. rewrite E1, E2.
    repeat (split; [reflexivity|]).
    destruct x as [l|].
    + destruct T as (T1 & T2). destruct (Z.eqb_spec u 0) as [U0|U0]; [subst u; cbn; auto|]. cbn [kept payload_typed diag_typed].
      assert (LF : Z.of_nat (length (firstn (Z.to_nat len) l)) = len) by (rewrite firstn_length; lia).
      split; [|split; [lia|lia]]. split; [reflexivity|]. split; [exact U0|]. split; [lia|]. destruct (Z.lt_ge_cases 0 len) as [L0|L0].
      * destruct (F1 L0) as (x & y0 & X1 & X2 & ->). cbn [option_map] in X1. injection X1 as <-. cbn [copied] in X2. destruct (Z.leb_spec len (Z.of_nat (length l))); [|lia]. injection X2 as <-. left. reflexivity.
      * right. replace len with 0 by lia. reflexivity.
    + destruct T as (T1 & T2). destruct (Z.lt_ge_cases 0 len) as [L0|L0]; [destruct (F1 L0) as (x & y0 & X1 & _); discriminate|].
      destruct (Z.eqb_spec u 0) as [U0|U0]; [subst u; cbn; auto|]. cbn [kept payload_typed diag_typed length]. split; [|lia]. split; [reflexivity|]. split; [exact U0|]. split; [lia|]. right. reflexivity.
  - unfold send_diagnosis in H. cbv zeta in H. destruct (with_idents_inv na ns nt _ _ _ _ _ _ D H) as (m & y & E1 & E2 & F). exists m, (rs_ident y).
    unfold raised. cbn [ev_idents ev_high ev_type ev_payload]. rewrite E1, E2. cbn [ev_ok] in T. unfold content in *. change usi_channel with 32768 in F. destruct (Z.ltb_spec (d_usi i) 32768) as [U|U].
    + apply send_alarm_inv in F. destruct F as (L & r & -> & F1 & F2). cbn [q_high q_type q_api q_slot q_sub q_module q_submodule q_usi q_len q_data].
      split; [reflexivity|]. split; [reflexivity|]. split; [destruct (Z.leb_spec 32768 (d_usi i)); [lia|reflexivity]|]. split; [reflexivity|]. split; [reflexivity|]. split; [reflexivity|].
      destruct (Z.eqb_spec (d_usi i) 0) as [U0|U0]; [cbn [kept payload_typed]; rewrite U0; auto|]. cbn [kept payload_typed]. split; [|split; [exact T|lia]]. split; [reflexivity|]. split; [exact U0|]. split; [reflexivity|].
      destruct (Z.lt_ge_cases 0 (Z.of_nat (length (d_data i)))) as [L0|L0].
      * destruct (F1 L0) as (x & y0 & X1 & X2 & ->). injection X1 as <-. cbn [copied] in X2. rewrite Z.leb_refl, Nat2Z.id, firstn_all in X2. injection X2 as <-. left. reflexivity.
      * right. destruct (d_data i); [reflexivity|cbn [length] in L0; lia].
    + apply send_alarm_inv in F. destruct F as (L & r & -> & F1 & F2). destruct (F1 ZP) as (x & y0 & X1 & X2 & ->). injection X1 as <-. cbn [copied] in X2. rewrite Z.leb_refl in X2. injection X2 as <-.
      cbn [q_high q_type q_api q_slot q_sub q_module q_submodule q_usi q_len q_data kept payload_typed].
      split; [reflexivity|]. split; [reflexivity|]. split.
      { destruct (Z.leb_spec 32768 (d_usi i)); [|lia]. unfold remote_mismatch. cbn [andb]. destruct (ch_err (d_std i) =? 32769); reflexivity. }
      repeat (split; [reflexivity|]). split; [|split; [exact T|exact I]]. split; [reflexivity|]. exists i. split; [reflexivity|]. unfold content. destruct (Z.ltb_spec (d_usi i) 32768); [lia|reflexivity].
  - unfold send_gone in H. change usi_channel with 32768 in H. cbn [ev_ok] in T. destruct (Z.ltb_spec u 32768) as [U|U]; [|lia].
    destruct (with_idents_inv na ns nt _ _ _ _ _ _ D H) as (m & y & E1 & E2 & F). apply send_alarm_inv in F. destruct F as (L & r & -> & F1 & F2).
    exists m, (rs_ident y). unfold raised. cbn [ev_idents ev_high ev_type ev_payload q_high q_type q_api q_slot q_sub q_module q_submodule q_usi q_len q_data]. rewrite E1, E2.
    repeat (split; [reflexivity|]). destruct (Z.eqb_spec u 0) as [U0|U0]; [subst u; cbn; auto|]. cbn [kept payload_typed diag_typed length]. split; [|lia]. split; [reflexivity|]. split; [exact U0|]. split; [reflexivity|]. right. reflexivity.
  - unfold send_pull in H. apply send_alarm_inv in H. destruct H as (L & r & -> & F1 & F2). exists 0, 0. unfold raised. cbn [ev_idents ev_high ev_type ev_payload q_high q_type q_api q_slot q_sub q_module q_submodule q_usi q_len q_data kept payload_typed snd].
    split; [reflexivity|]. split; [reflexivity|]. split; [destruct (t =? 0), (n_pull_module c); reflexivity|]. repeat split.
  - unfold send_plug in H. apply send_alarm_inv in H. destruct H as (L & r & -> & F1 & F2). exists m, k. repeat split.
  - unfold send_plug_wrong in H. apply send_alarm_inv in H. destruct H as (L & r & -> & F1 & F2). exists m, k. repeat split.
  - unfold send_released in H. apply send_alarm_inv in H. destruct H as (L & r & -> & F1 & F2). exists m, k. repeat split.
Qed.

(** * Alarms *)

Lemma dec_flags : forall d, adata_ok d ->
  dec true true get_flags (e16 true (alarm_spec d)) (mkAflags (ad_seq d) (ad_channel d =? 1) (ad_manuf d =? 1) (ad_submod d =? 1) (ad_ar d =? 1)).
Proof.
  intros d H. pose proof (alarm_spec_range d H) as R. unfold get_flags. eapply dec_last; [apply dec_u16; exact R|]. rewrite alarm_spec_val by exact H.
  destruct H as (_ & _ & _ & _ & _ & _ & A & B & C & D & E).
  assert (B' : ad_channel d = 0 \/ ad_channel d = 1) by lia. assert (C' : ad_manuf d = 0 \/ ad_manuf d = 1) by lia.
  assert (D' : ad_submod d = 0 \/ ad_submod d = 1) by lia. assert (E' : ad_ar d = 0 \/ ad_ar d = 1) by lia. clear R B C D E.
  remember (ad_seq d + ad_channel d * 2048 + ad_manuf d * 4096 + ad_submod d * 8192 + ad_ar d * 32768) as x eqn:X.
  assert (V : x mod 2048 = ad_seq d /\ x / 2048 mod 2 = ad_channel d /\ x / 4096 mod 2 = ad_manuf d /\ x / 8192 mod 2 = ad_submod d /\ x / 32768 mod 2 = ad_ar d).
  { subst x. destruct B' as [->| ->], C' as [->| ->], D' as [->| ->], E' as [->| ->]; repeat split; Z.div_mod_to_equations; lia. }
  destruct V as (-> & -> & -> & -> & ->). reflexivity.
Qed.
Definition enote (d : adata) (ps : list Z) : list Z :=
  e16 true (ad_type d) ++ e32 true (ad_api d) ++ e16 true (ad_slot d) ++ e16 true (ad_subslot d) ++ e32 true (ad_module d) ++ e32 true (ad_submodule d) ++ e16 true (alarm_spec d) ++ ps.
Lemma enote_length : forall d ps, length (enote d ps) = (20 + length ps)%nat.
Proof. intros d ps. unfold enote. rewrite !app_length, !e16_length, !e32_length. lia. Qed.
Lemma enc_note : forall ty d f ps, 0 <= ty < 65536 -> adata_ok d -> Z.of_nat (length ps) < 65000 -> enc f ps ->
  enc (put_alarm_notification true ty d f) (eblock true ty (enote d ps)).
Proof.
  intros ty d f ps T K L E. pose proof K as (A1 & A2 & A3 & A4 & A5 & A6 & _). pose proof (alarm_spec_range d K) as R. unfold put_alarm_notification, enote.
  apply enc_block; [exact T|fold (enote d ps); rewrite enote_length; lia|].
  repeat (apply enc_seq; [first [apply enc_u16; assumption|apply enc_u32; assumption]|]). exact E.
Qed.
Lemma dec_note : forall ty d v x, 0 <= ty < 65536 -> adata_ok d -> payload_typed x -> 0 <= v < 4294967296 -> Z.of_nat (told_size v x) < 65000 ->
  dec true true get_note (eblock true ty (enote d (epayload v x)))
    (mkNote (mkBhead ty (22 + Z.of_nat (told_size v x)) 1 0) (ad_type d) (ad_api d, ad_slot d, ad_subslot d) (ad_module d) (ad_submodule d)
      (mkAflags (ad_seq d) (ad_channel d =? 1) (ad_manuf d =? 1) (ad_submod d =? 1) (ad_ar d =? 1)) (told_payload v x)).
Proof.
  intros ty d v x T K P V L. pose proof K as (A1 & A2 & A3 & A4 & A5 & A6 & _). unfold get_note, eblock. rewrite enote_length, epayload_length.
  replace (2 + Z.of_nat (20 + told_size v x)) with (22 + Z.of_nat (told_size v x)) by lia.
  replace (e16 true ty ++ e16 true (22 + Z.of_nat (told_size v x)) ++ [1; 0] ++ enote d (epayload v x))
    with ((e16 true ty ++ e16 true (22 + Z.of_nat (told_size v x)) ++ [1; 0]) ++ enote d (epayload v x)) by (rewrite <- !app_assoc; reflexivity).
  eapply dec_bind; [apply dec_header; lia|]. unfold enote. eapply dec_bind; [apply dec_u16; exact A1|]. eapply dec_bind; [apply dec_u32; exact A2|].
  eapply dec_bind; [apply dec_u16; exact A3|]. eapply dec_bind; [apply dec_u16; exact A4|]. eapply dec_bind; [apply dec_u32; exact A5|]. eapply dec_bind; [apply dec_u32; exact A6|].
  eapply dec_bind; [apply dec_flags; exact K|]. cbn [b_length].
  replace (Z.to_nat (22 + Z.of_nat (told_size v x)) - 22)%nat with (length (epayload v x)) by (rewrite epayload_length; lia).
  eapply dec_last; [apply dec_payload; assumption|reflexivity].
Qed.

Lemma b1 : forall b, (bz b =? 1) = b.
Proof. intros []; reflexivity. Qed.
Lemma bz_range : forall b, 0 <= bz b < 2.
Proof. intros []; cbn; lia. Qed.
Lemma summary : forall na ns nt d max maxm n st ar a s t sn, dev_ok na ns nt d -> (0 < max)%nat -> dreach max maxm n known st ->
  let x := diag_summary d (lists_of max st) ar a s t in let l := stored_at max st (a, s, t) in
  mkAflags sn (sp_channel x) (sp_manuf x) (sp_submod x) (sp_ar x) = flags_of (sub_in d a s t) ar l sn /\
  sp_maint x = status_of (sub_in d a s t) l /\ 0 <= sp_maint x < 4294967296.
Proof.
  intros na ns nt d max maxm n st ar a s t sn D M R. cbv zeta. unfold diag_summary. rewrite (proj2 (idents_dev na ns nt d a s t D)).
  destruct (sub_in d a s t) as [y|]; [|cbn; split; [reflexivity|lia]].
  rewrite summed by (eapply lists_good; eassumption). cbn [sp_channel sp_manuf sp_submod sp_ar sp_maint orb]. rewrite Z.lor_0_l.
  pose proof (lists_stored max st (a, s, t)) as L. cbn [pl] in L. pose proof (lists_ok max maxm n st M R (a, s, t)) as (T & _). cbn [pl] in T.
  assert (V : 0 <= status (stored_at max st (a, s, t)) < 4294967296).
  { rewrite <- L. apply status_u32. intros x I. apply in_map_iff in I. destruct I as (i & <- & I). apply T. exact I. }
  rewrite L. cbn [flags_of status_of]. split; [|split; [reflexivity|exact V]]. f_equal. f_equal. unfold owned, owns. destruct (rs_own y), (rs_owner y); reflexivity.
Qed.
Lemma type_u16 : forall c p ev, 0 <= ev_type c p ev < 65536.
Proof.
  intros c p [u len x|i|u| |m k|m k|m k]; cbn [ev_type]; try lia.
  - destruct (content i) as [u s|u l]; [destruct (ch_err s =? 32769)|]; lia.
  - destruct ((snd p =? 0) && n_pull_module c); lia.
Qed.
Lemma told_size_max : forall v x, match x with Some (Manufacturer _ l) => Z.of_nat (length l) <= 1408 | _ => True end -> Z.of_nat (told_size v x) <= 1410.
Proof.
  intros v [[u s|u l]|] H; unfold told_size; cbn [standard andb diag_size]; [| |lia].
  - destruct (v =? 0), (u =? 32768), (u =? 32770); cbn [negb]; lia.
  - lia.
Qed.

(** C118: an alarm is put into the queue exactly if the connection is enabled, the payload
    fits and the submodule is there. *)
Theorem C118_taken : forall na ns nt h z c p ev, (0 < na)%nat -> build_ok z -> ev_ok (run na ns nt h) p ev ->
  (exists r, raise z c (run na ns nt h) p ev = Ok r) /\
  ((exists q, raise z c (run na ns nt h) p ev = Ok (Some q)) <->
   n_global c = true /\ n_enable c = true /\ ev_idents (run na ns nt h) p ev <> None /\
   counted_size z ev <= z_payload z /\ counted_size z ev <= n_max c /\
   match ev with EvProcess u len x => u < 32768 /\ (0 < len -> x <> None) | _ => True end).
Proof.
  intros na ns nt h z c [[a s] t] ev NA B (_ & T). pose proof (run_ok na ns nt h NA) as D. set (d := run na ns nt h) in *.
  pose proof (item_size_pos z B) as ZP.
  assert (SA : forall ty high m k usi len x, (forall y, x = Some y -> 0 < len -> exists r, copied z len y = Ok r) ->
    (exists r, send_alarm z c ty high a s t m k usi len x = Ok r) /\
    ((exists q, send_alarm z c ty high a s t m k usi len x = Ok (Some q)) <->
     n_global c = true /\ n_enable c = true /\ len <= z_payload z /\ len <= n_max c /\ (0 < len -> x <> None))).
  { intros ty high m k usi len x H. unfold send_alarm. destruct (n_global c), (n_enable c); cbn [negb orb]; try (split; [eauto|]; split; [intros (q & Q); discriminate|intros (? & ? & _); discriminate]).
    destruct (Z.ltb_spec (z_payload z) len); [split; [eauto|]; split; [intros (q & Q); discriminate|lia]|].
    destruct (Z.ltb_spec (n_max c) len); [split; [eauto|]; split; [intros (q & Q); discriminate|lia]|]. cbv zeta.
    destruct (Z.ltb_spec 0 len) as [L|L].
    - destruct x as [y|].
      + destruct (H y eq_refl L) as (r & ->). cbn [obind]. split; [eauto|]. split; [intros _; repeat split; try lia; intros _; discriminate|eauto].
      + split; [eauto|]. split; [intros (q & Q); discriminate|]. intros (_ & _ & _ & _ & N). exfalso. exact (N L eq_refl).
    - split; [eauto|]. split; [intros _; repeat split; lia|eauto]. }
  assert (WI : forall f (P : Prop), (forall m k, (exists r, f m k = Ok r) /\ ((exists q, f m k = Ok (Some q)) <-> P)) ->
    (exists r, with_idents d a s t f = Ok r) /\
    ((exists q, with_idents d a s t f = Ok (Some q)) <-> match mod_at d a s, sub_in d a s t with Some m, Some y => Some (m, rs_ident y) | _, _ => None end <> None /\ P)).
  { intros f P H. unfold with_idents, submodule_ident. destruct (idents_dev na ns nt d a s t D) as (-> & ->). destruct (mod_at d a s) as [m|].
    - destruct (sub_in d a s t) as [y|]; cbn [option_map].
      + destruct (H m (rs_ident y)) as (H1 & H2). split; [exact H1|]. rewrite H2. split; [intros X; split; [discriminate|exact X]|tauto].
      + split; [eauto|]. split; [intros (q & Q); discriminate|intros (Q & _); exfalso; exact (Q eq_refl)].
    - split; [eauto|]. split; [intros (q & Q); discriminate|intros (Q & _); exfalso; exact (Q eq_refl)]. }
  destruct ev as [u len x|i|u| |m k|m k|m k]; cbn [raise ev_idents counted_size].
  - unfold send_process. change usi_channel with 32768. destruct (Z.leb_spec 32768 u) as [U|U]; [split; [eauto|]; split; [intros (q & Q); discriminate|lia]|].
    destruct (WI _ _ (fun m k => SA 2 true m k u len (option_map PBytes x) ltac:(intros y Y L; destruct x as [l|]; cbn [option_map] in Y; [injection Y as <-; cbn [copied]; destruct (Z.leb_spec len (Z.of_nat (length l))); [eauto|destruct T; lia]|discriminate]))) as (W1 & W2).
    split; [exact W1|]. rewrite W2. split; [intros (W & A1 & A2 & A3 & A4 & A5)|intros (A1 & A2 & W & A3 & A4 & _ & A5)]; repeat split; auto.
    + intros L N. subst x. exact (A5 L eq_refl).
    + intros L N. destruct x; [discriminate|exact (A5 L eq_refl)].
  - unfold send_diagnosis. cbv zeta. unfold content. change usi_channel with 32768. destruct (Z.ltb_spec (d_usi i) 32768) as [U|U].
    + match goal with |- context [with_idents d a s t ?f] => destruct (WI f _ (fun m k => SA _ false m k (d_usi i) (Z.of_nat (length (d_data i))) (Some (PBytes (d_data i))) ltac:(intros y Y L; injection Y as <-; cbn [copied]; rewrite Z.leb_refl; eauto))) as (W1 & W2) end.
      split; [exact W1|]. rewrite W2. split; [intros (W & A1 & A2 & A3 & A4 & A5)|intros (A1 & A2 & W & A3 & A4 & _)]; repeat split; auto. discriminate.
    + match goal with |- context [with_idents d a s t ?f] => destruct (WI f _ (fun m k => SA _ false m k (d_usi i) (z_item z) (Some (PItem i)) ltac:(intros y Y L; injection Y as <-; cbn [copied]; rewrite Z.leb_refl; eauto))) as (W1 & W2) end.
      split; [exact W1|]. rewrite W2. split; [intros (W & A1 & A2 & A3 & A4 & A5)|intros (A1 & A2 & W & A3 & A4 & _)]; repeat split; auto. discriminate.
  - unfold send_gone. change usi_channel with 32768. destruct (Z.ltb_spec u 32768) as [U|U]; [|cbn [ev_ok] in T; lia].
    match goal with |- context [with_idents d a s t ?f] => destruct (WI f _ (fun m k => SA _ false m k u 0 None ltac:(discriminate))) as (W1 & W2) end.
    split; [exact W1|]. rewrite W2. split; [intros (W & A1 & A2 & A3 & A4 & A5)|intros (A1 & A2 & W & A3 & A4 & _)]; repeat split; auto. lia.
  - destruct (SA (if t =? 0 then if n_pull_module c then 31 else 3 else 3) false 0 0 0 0 None ltac:(discriminate)) as (W1 & W2). split; [exact W1|]. unfold send_pull. rewrite W2.
    split; [intros (A1 & A2 & A3 & A4 & A5)|intros (A1 & A2 & W & A3 & A4 & _)]; repeat split; auto; [discriminate|lia].
  - destruct (SA 4 false m k 0 0 None ltac:(discriminate)) as (W1 & W2). split; [exact W1|]. unfold send_plug. rewrite W2.
    split; [intros (A1 & A2 & A3 & A4 & A5)|intros (A1 & A2 & W & A3 & A4 & _)]; repeat split; auto; [discriminate|lia].
  - destruct (SA 10 false m k 0 0 None ltac:(discriminate)) as (W1 & W2). split; [exact W1|]. unfold send_plug_wrong. rewrite W2.
    split; [intros (A1 & A2 & A3 & A4 & A5)|intros (A1 & A2 & W & A3 & A4 & _)]; repeat split; auto; [discriminate|lia].
  - destruct (SA 9 false m k 0 0 None ltac:(discriminate)) as (W1 & W2). split; [exact W1|]. unfold send_released. rewrite W2.
    split; [intros (A1 & A2 & A3 & A4 & A5)|intros (A1 & A2 & W & A3 & A4 & _)]; repeat split; auto; [discriminate|lia].
Qed.
Print Assumptions C118_taken.

(** C118: what a controller decodes from the notification of an alarm.  It is reported after
    the history [h0] and sent after [h], with the diagnoses of [st].  Partial: of the ident
    number of the submodule only the lower 16 bits are told. *)
Theorem C118_notification_partial : forall na ns nt h0 h max maxm n st z c ar p ev q da sa dst src send exp_o send_o sn,
  (0 < na)%nat -> (0 < max)%nat -> dreach max maxm n known st -> build_ok z -> place_ok p -> ev_ok (run na ns nt h0) p ev ->
  raise z c (run na ns nt h0) p ev = Ok (Some q) -> bytes6 da -> bytes6 sa ->
  0 <= dst < 65536 -> 0 <= src < 65536 -> 0 <= send < 65536 -> 0 <= exp_o < 65536 -> 0 <= sn < 2048 ->
  q_high q = ev_high ev /\
  exists m k, ev_idents (run na ns nt h0) p ev = Some (m, k) /\
  let y := let '(a, s, t) := p in sub_in (run na ns nt h) a s t in
  let v := status_of y (stored_at max st p) in let size := Z.of_nat (told_size v (ev_payload ev)) in
  on_wire (notification sa (run na ns nt h) (lists_of max st) ar (aend_for (ev_high ev) da dst src send exp_o send_o) sn q) (with_head get_note)
    (head_of (ev_high ev) da sa dst src 1 1 send exp_o (26 + size),
     mkNote (mkBhead (if ev_high ev then 1 else 2) (22 + size) 1 0) (ev_type c p ev) p m (k mod 65536)
       (flags_of y ar (stored_at max st p) sn) (told_payload v (ev_payload ev))).
Proof.
  intros na ns nt h0 h max maxm n st z c ar p ev q da sa dst src send exp_o send_o sn NA M R B P EO H D1 D2 V1 V2 V3 V4 V5.
  pose proof EO as (EI & _). destruct (raise_inv na ns nt z c _ p ev q (run_ok na ns nt h0 NA) B EO H) as (m & k & E & QH & QT & QP & QM & QS & K & PT & PL). split; [exact QH|].
  exists m, k. split; [exact E|]. destruct (EI m k E) as (Rm & Rk). destruct p as [[a s] t]. injection QP as Qa Qs Qt. destruct P as (Pa & Ps & Pt). cbv zeta.
  destruct (summary na ns nt (run na ns nt h) max maxm n st ar a s t sn (run_ok na ns nt h NA) M R) as (F & SV & SR). cbv zeta in F, SV, SR.
  unfold notification. cbv zeta. rewrite Qa, Qs, Qt. set (x := diag_summary (run na ns nt h) (lists_of max st) ar a s t) in *. rewrite <- SV, <- F.
  pose proof (told_size_max (sp_maint x) _ PL) as SZ. set (ty := if ev_high ev then 1 else 2).
  assert (TY : 0 <= ty < 65536) by (unfold ty; destruct (ev_high ev); lia).
  assert (A : adata_ok (stamped q x sn)).
  { unfold adata_ok, stamped. cbn [ad_type ad_api ad_slot ad_subslot ad_module ad_submodule ad_seq ad_channel ad_manuf ad_submod ad_ar]. rewrite QT, Qa, Qs, Qt, QM, QS.
    pose proof (type_u16 c (a, s, t) ev). pose proof (Z.mod_pos_bound k 65536 ltac:(lia)). repeat split; try lia; try apply bz_range. }
  pose proof (enc_payload (q_usi q) (q_len q) (sp_maint x) (q_data q) _ K PT SR) as EP.
  pose proof (epayload_length (sp_maint x) (ev_payload ev)) as EL.
  pose proof (enc_note ty (stamped q x sn) _ _ TY A ltac:(rewrite EL; lia) EP) as EN.
  assert (LN : length (eblock true ty (enote (stamped q x sn) (epayload (sp_maint x) (ev_payload ev)))) = (26 + told_size (sp_maint x) (ev_payload ev))%nat).
  { unfold eblock. rewrite !app_length, !e16_length, enote_length, EL. cbn [length]. lia. }
  assert (FX : afixed_ok (mkAfixed dst src 1 1 1 1 send exp_o)) by (unfold afixed_ok; cbn; repeat split; lia).
  pose proof (dec_note ty (stamped q x sn) (sp_maint x) (ev_payload ev) TY A PT SR ltac:(lia)) as DN.
  assert (DP : data_part (aend_for (ev_high ev) da dst src send exp_o send_o) = mkAfixed dst src 1 1 1 1 send exp_o) by (destruct (ev_high ev); reflexivity).
  assert (NT : e_notify (aend_for (ev_high ev) da dst src send exp_o send_o) = ty) by (unfold ty; destruct (ev_high ev); reflexivity).
  rewrite DP, NT. eapply wire_of.
  - apply fenc_frame; [exact FX|apply fenc_of; exact EN].
  - rewrite eframe_length by assumption. rewrite LN. lia.
  - pose proof (dec_frame _ (ev_high ev) da sa _ _ _ _ D1 D2 FX ltac:(rewrite LN; lia) DN) as DF. rewrite LN in DF.
    unfold stamped in DF at 2 3 4 5 6 7 8 9 10 11 12. cbn [ad_type ad_api ad_slot ad_subslot ad_module ad_submodule ad_seq ad_channel ad_manuf ad_submod ad_ar a_dst a_src a_type a_version a_window a_tack a_send a_ack] in DF.
    rewrite !b1, QT, Qa, Qs, Qt, QM, QS in DF. unfold head_of. replace (26 + Z.of_nat (told_size (sp_maint x) (ev_payload ev))) with (Z.of_nat (26 + told_size (sp_maint x) (ev_payload ev))) by lia. exact DF.
Qed.
Print Assumptions C118_notification_partial.

(** C118: the acknowledge of an alarm of the controller repeats its type, place, sequence
    number and flags and tells the status. *)
Theorem C118_acknowledge : forall high al x da sa dst src send exp_o send_o, adata_ok al -> pnio_ok x -> bytes6 da -> bytes6 sa ->
  0 <= dst < 65536 -> 0 <= src < 65536 -> 0 <= send < 65536 -> 0 <= exp_o < 65536 ->
  on_wire (acknowledge sa (aend_for high da dst src send exp_o send_o) al x) (with_head get_acked)
    (head_of high da sa dst src 1 1 send exp_o 22,
     (mkBhead (if high then 32769 else 32770) 18 1 0, ad_type al, (ad_api al, ad_slot al, ad_subslot al),
      mkAflags (ad_seq al) (ad_channel al =? 1) (ad_manuf al =? 1) (ad_submod al =? 1) (ad_ar al =? 1), x)).
Proof.
  intros high al x da sa dst src send exp_o send_o A X D1 D2 V1 V2 V3 V4. unfold acknowledge.
  assert (FX : afixed_ok (mkAfixed dst src 1 1 1 1 send exp_o)) by (unfold afixed_ok; cbn; repeat split; lia).
  assert (DP : data_part (aend_for high da dst src send exp_o send_o) = mkAfixed dst src 1 1 1 1 send exp_o) by (destruct high; reflexivity).
  assert (NT : e_ack (aend_for high da dst src send exp_o send_o) = if high then 32769 else 32770) by (destruct high; reflexivity). rewrite DP, NT.
  set (ty := if high then 32769 else 32770). assert (TY : 0 <= ty < 65536) by (unfold ty; destruct high; lia).
  pose proof A as (A1 & A2 & A3 & A4 & _). pose proof (alarm_spec_range al A) as AR.
  set (bs := e16 true (ad_type al) ++ e32 true (ad_api al) ++ e16 true (ad_slot al) ++ e16 true (ad_subslot al) ++ e16 true (alarm_spec al) ++ [p_code x; p_decode x; p_code1 x; p_code2 x]).
  assert (LB : length bs = 16%nat) by (unfold bs; rewrite !app_length, !e16_length, e32_length; reflexivity).
  assert (LE : length (eblock true ty bs) = 22%nat) by (unfold eblock; rewrite !app_length, !e16_length, LB; reflexivity).
  eapply wire_of.
  - apply fenc_frame; [exact FX|]. unfold put_alarm_ack. apply (fenc_block ty _ bs TY). unfold bs.
    repeat (apply fenc_seq; [first [apply fenc_of, enc_u16; assumption|apply fenc_of, enc_u32; assumption]|]). apply fenc_with_len, fenc_of, enc_pnio. exact X.
  - rewrite eframe_length, LE by assumption. lia.
  - assert (DA : dec true true get_acked (eblock true ty bs) (mkBhead ty 18 1 0, ad_type al, (ad_api al, ad_slot al, ad_subslot al),
      mkAflags (ad_seq al) (ad_channel al =? 1) (ad_manuf al =? 1) (ad_submod al =? 1) (ad_ar al =? 1), x)).
    { unfold get_acked, eblock. rewrite LB. change (2 + Z.of_nat 16) with 18.
      replace (e16 true ty ++ e16 true 18 ++ [1; 0] ++ bs) with ((e16 true ty ++ e16 true 18 ++ [1; 0]) ++ bs) by (rewrite <- !app_assoc; reflexivity).
      eapply dec_bind; [apply dec_header; lia|]. unfold bs. eapply dec_bind; [apply dec_u16; exact A1|]. eapply dec_bind; [apply dec_u32; exact A2|].
      eapply dec_bind; [apply dec_u16; exact A3|]. eapply dec_bind; [apply dec_u16; exact A4|]. eapply dec_bind; [apply dec_flags; exact A|].
      change [p_code x; p_decode x; p_code1 x; p_code2 x] with ([p_code x] ++ [p_decode x] ++ [p_code1 x] ++ [p_code2 x]).
      eapply dec_bind; [apply dec_byte|]. eapply dec_bind; [apply dec_byte|]. eapply dec_bind; [apply dec_byte|]. eapply dec_last; [apply dec_byte|]. destruct x; reflexivity. }
    pose proof (dec_frame _ high da sa _ _ _ _ D1 D2 FX ltac:(rewrite LE; lia) DA) as DF. rewrite LE in DF. exact DF.
Qed.
Print Assumptions C118_acknowledge.

(** C118: the frame that closes the alarm connection tells the reason. *)
Theorem C118_close : forall high code da sa dst src send exp_o send_o, 0 <= code < 256 -> bytes6 da -> bytes6 sa ->
  0 <= dst < 65536 -> 0 <= src < 65536 -> 0 <= send < 65536 -> 0 <= exp_o < 65536 ->
  on_wire (closing sa (aend_for high da dst src send exp_o send_o) code) (with_head get_error)
    (head_of high da sa dst src 4 0 send exp_o 4, mkPnio 207 129 253 code).
Proof.
  intros high code da sa dst src send exp_o send_o C D1 D2 V1 V2 V3 V4. unfold closing.
  replace (mkAfixed _ _ 4 1 1 0 _ _) with (mkAfixed dst src 4 1 1 0 send exp_o) by (destruct high; reflexivity).
  assert (FX : afixed_ok (mkAfixed dst src 4 1 1 0 send exp_o)) by (unfold afixed_ok; cbn; repeat split; lia).
  assert (EP : enc (put_pnet_status true (mkPnio 207 129 253 code)) [207; 129; 253; code]) by (apply (enc_pnio (mkPnio 207 129 253 code)); unfold pnio_ok, byte; cbn; lia).
  eapply wire_of.
  - apply fenc_frame; [exact FX|apply fenc_of; exact EP].
  - rewrite eframe_length by assumption. cbn [length]. lia.
  - assert (DE : dec true true get_error [207; 129; 253; code] (mkPnio 207 129 253 code)).
    { unfold get_error. change [207; 129; 253; code] with ([207] ++ [129] ++ [253] ++ [code]).
      eapply dec_bind; [apply dec_byte|]. eapply dec_bind; [apply dec_byte|]. eapply dec_bind; [apply dec_byte|]. eapply dec_last; [apply dec_byte|reflexivity]. }
    assert (L4 : Z.of_nat (length [207; 129; 253; code]) < 65536) by (cbn [length]; lia). exact (dec_frame _ high da sa _ _ _ _ D1 D2 FX L4 DE).
Qed.
Print Assumptions C118_close.

(** C118: transport acknowledges and negative ones carry nothing but the head. *)
Theorem C118_transport : forall high ok da sa dst src send exp_o send_o, bytes6 da -> bytes6 sa ->
  0 <= dst < 65536 -> 0 <= src < 65536 -> 0 <= send_o < 65536 -> 0 <= exp_o < 65536 ->
  on_wire (transport sa (aend_for high da dst src send exp_o send_o) ok) (with_head (rret tt))
    (head_of high da sa dst src (if ok then 3 else 2) 0 send_o exp_o 0, tt).
Proof.
  intros high ok da sa dst src send exp_o send_o D1 D2 V1 V2 V3 V4. unfold transport.
  replace (mkAfixed _ _ _ 1 1 0 _ _) with (mkAfixed dst src (if ok then 3 else 2) 1 1 0 send_o exp_o) by (destruct high; reflexivity).
  assert (FX : afixed_ok (mkAfixed dst src (if ok then 3 else 2) 1 1 0 send_o exp_o)) by (unfold afixed_ok; destruct ok; cbn; repeat split; lia).
  eapply wire_of.
  - apply fenc_frame; [exact FX|apply fenc_of; exact enc_skip].
  - rewrite eframe_length by assumption. cbn [length]. lia.
  - assert (L0 : Z.of_nat (length (@nil Z)) < 65536) by (cbn [length]; lia). exact (dec_frame _ high da sa _ [] _ _ D1 D2 FX L0 (dec_ret _ true tt)).
Qed.
Print Assumptions C118_transport.

Lemma wire_map : forall A B f (g : reader A) (F : A -> B) x, on_wire f g x -> on_wire f (rdo y <- g; rret (F y)) (F x).
Proof. intros A B f g F x H b L. destruct (H b L) as (fr & E & L2 & G). exists fr. split; [exact E|]. split; [exact L2|]. unfold rbind. rewrite G. reflexivity. Qed.

(** C118: a submodule with ident number 0x10001 is told as one with ident number 1. *)
Definition z_small : asizes := mkAsizes 256 24.
Definition c_open : aconn := mkAconn true true 200 true.
Theorem C118_ident_refuted : exists h st q,
  sub_in (run 1 1 1 h) 0 1 1 <> None /\ ev_idents (run 1 1 1 h) (0, 1, 1) (EvGone 7) = Some (50, 65537) /\
  build_ok z_small /\ dreach 4 100 2 known st /\ raise z_small c_open (run 1 1 1 h) (0, 1, 1) (EvGone 7) = Ok (Some q) /\
  forall da sa dst src send exp_o send_o sn, bytes6 da -> bytes6 sa ->
  0 <= dst < 65536 -> 0 <= src < 65536 -> 0 <= send < 65536 -> 0 <= exp_o < 65536 -> 0 <= sn < 2048 ->
  on_wire (notification sa (run 1 1 1 h) (lists_of 4 st) 0 (aend_for (q_high q) da dst src send exp_o send_o) sn q)
    (rdo x <- with_head get_note; rret (t_submodule (snd x))) 1.
Proof.
  set (h := [PlugModule 0 1 50; PlugSub [] (fun _ => true) 0 1 1 50 65537 (0, 0, 0)]). exists h, (dinit 4 2).
  assert (I : ev_idents (run 1 1 1 h) (0, 1, 1) (EvGone 7) = Some (50, 65537)) by (vm_compute; reflexivity).
  assert (B : build_ok z_small) by (exists 14; unfold z_small; cbn; unfold item_size; cbn; lia).
  assert (R : dreach 4 100 2 known (dinit 4 2)) by (exists [], []; split; [constructor|reflexivity]).
  destruct (raise z_small c_open (run 1 1 1 h) (0, 1, 1) (EvGone 7)) as [[q|]| |] eqn:E; try (vm_compute in E; discriminate). exists q.
  split; [vm_compute; discriminate|]. split; [exact I|]. split; [exact B|]. split; [exact R|]. split; [reflexivity|].
  intros da sa dst src send exp_o send_o sn D1 D2 V1 V2 V3 V4 V5.
  assert (EO : ev_ok (run 1 1 1 h) (0, 1, 1) (EvGone 7)).
  { unfold ev_ok. split; [intros m k Q; rewrite I in Q; injection Q as <- <-; lia|lia]. }
  destruct (C118_notification_partial 1 1 1 h h 4 100 2 (dinit 4 2) z_small c_open 0 (0, 1, 1) (EvGone 7) q da sa dst src send exp_o send_o sn) as (QH & m & k & J & W);
    try assumption; try lia; [unfold place_ok; lia|]. rewrite I in J. injection J as <- <-. rewrite QH.
  cbv zeta in W. apply (wire_map _ _ _ _ (fun x => t_submodule (snd x))) in W. exact W.
Qed.
Print Assumptions C118_ident_refuted.

(** C118: there is a build and a connection to a controller that accepts alarms with 200
    bytes of data such that no diagnosis in a standard format is ever reported in an alarm,
    although 32 bytes would do. *)
Theorem C118_standard_refuted : exists z c, build_ok z /\ 200 <= n_max c <= 1432 /\ n_global c = true /\ n_enable c = true /\
  forall na ns nt h p i, (0 < na)%nat -> standard (content i) = true ->
  raise z c (run na ns nt h) p (EvDiagnosis i) = Ok None /\ forall v, (told_size v (ev_payload (EvDiagnosis i)) <= 32)%nat.
Proof.
  exists (mkAsizes 1408 1408), c_open. split; [exists 1396; cbn; unfold item_size; cbn; lia|]. split; [cbn; lia|]. split; [reflexivity|]. split; [reflexivity|].
  intros na ns nt h [[a s] t] i NA SI. cbn [raise ev_payload]. unfold content in SI |- *. unfold send_diagnosis. cbv zeta. change usi_channel with 32768.
  destruct (Z.ltb_spec (d_usi i) 32768) as [U|U]; [discriminate|]. split.
  - unfold with_idents. destruct (module_ident _ a s); [|reflexivity]. destruct (submodule_ident _ a s t); reflexivity.
  - intros v. unfold told_size. cbn [standard andb diag_size]. destruct (v =? 0), (d_usi i =? 32768), (d_usi i =? 32770); cbn [negb]; lia.
Qed.
Print Assumptions C118_standard_refuted.

(** A device with a fault, a maintenance and a manufacturer specific diagnosis: the fault is
    reported with the maintenance status, a process alarm with its bytes. *)
Example C118_example : exists st i q q2,
  dreach 4 100 2 known st /\ build_ok z_small /\ ev_ok (run 1 2 5 ex_history) kA (EvDiagnosis i) /\ ev_ok (run 1 2 5 ex_history) kA (EvProcess 7 2 (Some [1; 2; 3])) /\
  raise z_small c_open (run 1 2 5 ex_history) kA (EvDiagnosis i) = Ok (Some q) /\
  raise z_small c_open (run 1 2 5 ex_history) kA (EvProcess 7 2 (Some [1; 2; 3])) = Ok (Some q2) /\
  ev_payload (EvProcess 7 2 (Some [1; 2; 3])) = Some (Manufacturer 7 [1; 2]) /\
  In (content i) (stored_at 4 st kA) /\ ev_type c_open kA (EvDiagnosis i) = 1 /\
  let y := sub_in (run 1 2 5 ex_history) 0 1 1 in let v := status_of y (stored_at 4 st kA) in
  flags_of y 0 (stored_at 4 st kA) 5 = mkAflags 5 true true true true /\ flags_of y 1 (stored_at 4 st kA) 5 = mkAflags 5 true true true false /\
  v = 1 /\ told_size v (ev_payload (EvDiagnosis i)) = 28%nat.
Proof.
  set (xs := plugged ++ [add_fault srcA 9; add_usi 7; add_maint srcA 5]).
  assert (K : Forall known xs) by (unfold xs, known; cbn [app plugged]; proper_tac).
  destruct (drun 4 100 xs (dinit 4 2) []) as [[st tr]|] eqn:E; [|vm_compute in E; discriminate]. exists st.
  exists (mkItem true None 32770 (mkStd 4 (props 0 0 0 1 1) 9 0 7 0) []).
  eexists. eexists. split; [exists xs, tr; split; [exact K|exact E]|]. clear K.
  split; [exists 14; unfold z_small; cbn; unfold item_size; cbn; lia|].
  assert (I : forall ev, (match ev with EvProcess _ _ _ | EvDiagnosis _ => True | _ => False end) -> ev_idents (run 1 2 5 ex_history) kA ev = Some (50, 60)) by (intros [] H; try destruct H; vm_compute; reflexivity).
  split; [split; [intros m k Q; rewrite I in Q by exact Logic.I; injection Q as <- <-; lia|vm_compute; intuition discriminate]|].
  split; [split; [intros m k Q; rewrite I in Q by exact Logic.I; injection Q as <- <-; lia|cbn; lia]|].
  split; [vm_compute; reflexivity|]. split; [vm_compute; reflexivity|]. split; [reflexivity|].
  assert (S1 : stored_at 4 st (0, 1, 1) = [Standard 32770 (mkStd 4 (props 0 0 1 1 1) 5 0 7 0); Manufacturer 7 [1; 2]; Standard 32770 (mkStd 4 (props 0 0 0 1 1) 9 0 7 0)])
    by (vm_compute in E; injection E as <- _; reflexivity).
  change kA with (0, 1, 1). rewrite S1. split; [right; right; left; reflexivity|]. split; [reflexivity|].
  cbv zeta. split; [vm_compute; reflexivity|]. split; [vm_compute; reflexivity|]. split; vm_compute; reflexivity.
Qed.
