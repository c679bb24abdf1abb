(** Block reader: no access outside the received data and sticky errors (C27),
    tables filled from requests (C29), expected modules per API (C45). *)
From Coq Require Import List ZArith Arith Bool Lia.
From Verif Require Import Base CpmModel CpmProps PpmModel PpmProps BlockModel BlockReadLemmas.
Import ListNotations.
Local Open Scope Z_scope.

(** * C27 *)

(** ** Specification: sequences of primitive reads *)
Inductive rop := RByte | RU16 | RU32 | RMem (n : nat) | RUuid.
Inductive rval := VNum (v : Z) | VMem (v : option (list Z)) | VUuid (u : uuid).

Definition zero8 : list Z := [0; 0; 0; 0; 0; 0; 0; 0].

Definition run_rop (o : rop) : reader rval :=
  match o with
  | RByte => rdo v <- get_byte; rret (VNum v)
  | RU16 => rdo v <- get_u16; rret (VNum v)
  | RU32 => rdo v <- get_u32; rret (VNum v)
  | RMem n => rdo v <- get_mem (Z.of_nat n); rret (VMem v)
  | RUuid => rdo v <- get_uuid zero8; rret (VUuid v)
  end.

Fixpoint run_rops (l : list rop) : reader (list rval) :=
  match l with
  | [] => rret []
  | o :: k => rdo v <- run_rop o; rdo vs <- run_rops k; rret (v :: vs)
  end.

(** What a read delivers when nothing is taken from the buffer. *)
Definition nothing (o : rop) : rval :=
  match o with
  | RByte | RU16 | RU32 => VNum 0
  | RMem _ => VMem None
  | RUuid => VUuid (mkUuid 0 0 0 zero8)
  end.

Lemma safe_rop : forall o, safe true (run_rop o) (fun _ => True).
Proof.
  intros []; cbn [run_rop].
  - eapply safe_bind; [apply safe_byte|intros]. apply safe_ret; exact Logic.I.
  - eapply safe_bind; [apply safe_u16|intros]. apply safe_ret; exact Logic.I.
  - eapply safe_bind; [apply safe_u32|intros]. apply safe_ret; exact Logic.I.
  - eapply safe_bind; [apply safe_mem; lia|intros]. apply safe_ret; exact Logic.I.
  - eapply safe_bind; [apply safe_uuid; reflexivity|intros]. apply safe_ret; exact Logic.I.
Qed.

Lemma safe_rops : forall l, safe true (run_rops l) (fun v => length v = length l).
Proof.
  intros l. induction l as [|o l IH]; cbn [run_rops].
  - apply safe_ret. reflexivity.
  - eapply safe_bind; [apply safe_rop|intros v _]. eapply safe_bind; [apply IH|intros vs H].
    apply safe_ret. cbn [length]. congruence.
Qed.

(** Whatever is read from whatever buffer, in whatever state: no access outside
    the [len] received bytes (here the buffer is exactly that long, so any other
    access would be undefined behaviour), one value per read, and the position
    only moves forward and never past the end. *)
Theorem C27_never_outside : forall ops buf be e pos,
  Forall byte buf -> Z.of_nat (length buf) < 65536 -> 0 <= pos < 65536 ->
  exists vs r',
    run_rops ops (mkRd (Some buf) (Z.of_nat (length buf)) be e pos) = Ok (vs, r') /\
    length vs = length ops /\ r_buf r' = Some buf /\
    pos <= r_pos r' <= Z.max pos (Z.of_nat (length buf)).
Proof.
  intros ops buf be e pos B L P.
  destruct (safe_rops ops (mkRd (Some buf) (Z.of_nat (length buf)) be e pos)) as (vs & r' & E & V & S1).
  { unfold rok; cbn [r_pos r_len r_buf]. repeat split; try lia. exact B. }
  exists vs, r'. destruct S1 as (S1 & S2 & S3 & _). cbn [r_buf r_len r_pos] in *. auto.
Qed.
Print Assumptions C27_never_outside.

(** The received data may be part of a larger buffer; the bytes behind it make no
    difference to what is read. *)
Lemma byte_at_ext : forall a x y i, 0 <= i < Z.of_nat (length a) -> byte_at (a ++ x) i = byte_at (a ++ y) i.
Proof.
  intros a x y i H. rewrite !byte_at_ok by (rewrite app_length; lia). rewrite !app_nth1 by lia. reflexivity.
Qed.

Definition with_tail (a x : list Z) (r : rd) : Prop := r_buf r = Some (a ++ x).
Definition swap_tail (a y : list Z) (r : rd) : rd := mkRd (Some (a ++ y)) (r_len r) (r_be r) (r_res r) (r_pos r).

Definition tail_indep {A} (m : reader A) : Prop :=
  forall a x y r v r', r_buf r = Some (a ++ x) -> r_len r = Z.of_nat (length a) -> 0 <= r_pos r ->
    m r = Ok (v, r') -> m (swap_tail a y r) = Ok (v, swap_tail a y r') /\
    r_buf r' = Some (a ++ x) /\ r_len r' = Z.of_nat (length a) /\ 0 <= r_pos r'.

Lemma ti_ret : forall A (a : A), tail_indep (rret a).
Proof. intros A a b x y r v r' H L P E. unfold rret in *. inversion E; subst. auto. Qed.

Lemma ti_bind : forall A B (m : reader A) (k : A -> reader B), tail_indep m -> (forall a, tail_indep (k a)) -> tail_indep (rbind m k).
Proof.
  intros A B m k H K a x y r v r' Hb L P E. unfold rbind in *.
  destruct (m r) as [[w r1]| |] eqn:Em; cbn [obind] in E; try discriminate.
  destruct (H a x y r w r1 Hb L P Em) as (E1 & B1 & L1 & P1). rewrite E1. cbn [obind].
  exact (K w a x y r1 v r' B1 L1 P1 E).
Qed.

Lemma ti_byte : tail_indep get_byte.
Proof.
  intros a x y r v r' H L P E. unfold get_byte, swap_tail in *. cbn [r_res r_len r_pos r_buf].
  destruct (is_ok (r_res r)); cbn [negb] in *; [|inversion E; subst; auto].
  destruct (Z.leb_spec (r_len r) (r_pos r)); [inversion E; subst; cbn; auto|].
  rewrite H in E. rewrite (byte_at_ext a y x) by lia.
  destruct (byte_at (a ++ x) (r_pos r)); cbn [obind] in *; try discriminate. inversion E; subst.
  unfold set_pos; cbn [r_buf r_len r_be r_res r_pos]. repeat split; auto. apply u16_range.
Qed.

Lemma ti_mem : forall n, 0 <= n -> tail_indep (get_mem n).
Proof.
  intros n N a x y r v r' H L P E. unfold get_mem, swap_tail in *. cbn [r_res r_len r_pos r_buf].
  destruct (is_ok (r_res r)); cbn [negb] in *; [|inversion E; subst; auto].
  destruct (Z.ltb_spec (r_len r) (r_pos r + n)); [inversion E; subst; cbn; auto|].
  rewrite H in E.
  assert (X : forall z, slice (a ++ z) (r_pos r) n = Ok (firstn (Z.to_nat n) (skipn (Z.to_nat (r_pos r)) a))).
  { intros z. rewrite slice_ok by (rewrite ?app_length; lia). f_equal.
    rewrite skipn_app, firstn_app, skipn_length.
    replace (Z.to_nat n - (length a - Z.to_nat (r_pos r)))%nat with 0%nat by lia. cbn [firstn]. apply app_nil_r. }
  rewrite X in *. cbn [obind] in *. inversion E; subst.
  unfold set_pos; cbn [r_buf r_len r_be r_res r_pos]. repeat split; auto. apply u16_range.
Qed.

Lemma ti_u16 : tail_indep get_u16.
Proof.
  intros a x y r v r' H L P E. unfold get_u16 in *.
  cbn [swap_tail r_res r_be].
  destruct (is_ok (r_res r)); cbn [negb] in *; [|inversion E; subst; auto].
  revert E. apply (ti_bind _ _ get_byte _ ti_byte); [|exact H|exact L|exact P].
  intros p. apply ti_bind; [apply ti_byte|]. intros q. apply ti_ret.
Qed.

Lemma ti_u32 : tail_indep get_u32.
Proof.
  intros a x y r v r' H L P E. unfold get_u32 in *. cbn [swap_tail r_be].
  revert E. apply (ti_bind _ _ get_byte _ ti_byte); [|exact H|exact L|exact P].
  intros p. apply ti_bind; [apply ti_byte|]. intros q. apply ti_bind; [apply ti_byte|]. intros s.
  apply ti_bind; [apply ti_byte|]. intros t. apply ti_ret.
Qed.

Lemma ti_rop : forall o, tail_indep (run_rop o).
Proof.
  intros []; cbn [run_rop]; try (apply ti_bind; [first [apply ti_byte|apply ti_u16|apply ti_u32|apply ti_mem; lia]|intros; apply ti_ret]).
  apply ti_bind; [|intros; apply ti_ret]. unfold get_uuid.
  apply ti_bind; [apply ti_u32|intros d1]. apply ti_bind; [apply ti_u16|intros d2]. apply ti_bind; [apply ti_u16|intros d3].
  apply ti_bind; [|intros; apply ti_ret].
  intros a x y r v r' H L P E. unfold get_mem_into in *.
  destruct (get_mem 8 r) as [[w r1]| |] eqn:Em; cbn [obind] in E; try discriminate.
  destruct (ti_mem 8 ltac:(lia) a x y r w r1 H L P Em) as (E1 & B1 & L1 & P1). rewrite E1. cbn [obind].
  destruct w; [destruct (8 <? 8)|]; inversion E; subst; auto.
Qed.

Theorem C27_only_received_data : forall ops data x y be e pos vs r',
  0 <= pos ->
  run_rops ops (mkRd (Some (data ++ x)) (Z.of_nat (length data)) be e pos) = Ok (vs, r') ->
  exists r'', run_rops ops (mkRd (Some (data ++ y)) (Z.of_nat (length data)) be e pos) = Ok (vs, r'') /\
    r_pos r'' = r_pos r' /\ r_res r'' = r_res r'.
Proof.
  intros ops data x y be e pos vs r' P E.
  assert (T : forall l, tail_indep (run_rops l)).
  { induction l as [|o l IH]; cbn [run_rops]; [apply ti_ret|].
    apply ti_bind; [apply ti_rop|intros v]. apply ti_bind; [exact IH|intros; apply ti_ret]. }
  destruct (T ops data x y (mkRd (Some (data ++ x)) (Z.of_nat (length data)) be e pos) vs r' eq_refl eq_refl P E) as (E2 & _).
  eexists. split; [exact E2|]. split; reflexivity.
Qed.
Print Assumptions C27_only_received_data.

(** After an error every read returns nothing and leaves everything as it was. *)
Theorem C27_errors_are_sticky : forall ops r, r_res r <> POk ->
  run_rops ops r = Ok (map nothing ops, r).
Proof.
  intros ops r H. assert (Ho : is_ok (r_res r) = false).
  { destruct (is_ok (r_res r)) eqn:E; [|reflexivity]. apply is_ok_true in E. congruence. }
  assert (B : get_byte r = Ok (0, r)) by (unfold get_byte; rewrite Ho; reflexivity).
  assert (U : get_u16 r = Ok (0, r)) by (unfold get_u16; rewrite Ho; reflexivity).
  assert (W : get_u32 r = Ok (0, r)).
  { unfold get_u32, rbind. rewrite B. cbn [obind]. rewrite B. cbn [obind]. rewrite B. cbn [obind]. rewrite B. cbn [obind].
    destruct (r_be r); reflexivity. }
  assert (M : forall n, get_mem n r = Ok (None, r)) by (intros n; unfold get_mem; rewrite Ho; reflexivity).
  assert (D : get_uuid zero8 r = Ok (mkUuid 0 0 0 zero8, r)).
  { unfold get_uuid, rbind. rewrite W. cbn [obind]. rewrite U. cbn [obind]. rewrite U. cbn [obind].
    unfold get_mem_into. rewrite M. cbn [obind]. reflexivity. }
  induction ops as [|o ops IH]; cbn [run_rops map]; [reflexivity|].
  assert (O : run_rop o r = Ok (nothing o, r)).
  { destruct o; cbn [run_rop nothing]; unfold rbind.
    - rewrite B; reflexivity.
    - rewrite U; reflexivity.
    - rewrite W; reflexivity.
    - rewrite M; reflexivity.
    - rewrite D; reflexivity. }
  unfold rbind. rewrite O. cbn [obind]. rewrite IH. cbn [obind]. reflexivity.
Qed.
Print Assumptions C27_errors_are_sticky.

(** Values: numbers in the byte order of the data; a read fails exactly when the
    data is too short. *)
Theorem C27_byte_value : forall pre v post be,
  byte v -> Z.of_nat (length (pre ++ v :: post)) < 65536 ->
  get_byte (mkRd (Some (pre ++ v :: post)) (Z.of_nat (length (pre ++ v :: post))) be POk (Z.of_nat (length pre)))
  = Ok (v, mkRd (Some (pre ++ v :: post)) (Z.of_nat (length (pre ++ v :: post))) be POk (Z.of_nat (length pre) + 1)).
Proof.
  intros pre v post be V L. unfold get_byte. cbn [r_res r_len r_pos r_buf is_ok negb].
  rewrite app_length in *. cbn [length] in *.
  destruct (Z.leb_spec (Z.of_nat (length pre + S (length post))) (Z.of_nat (length pre))); [lia|].
  rewrite byte_at_ok by (rewrite app_length; cbn [length]; lia). cbn [obind]. rewrite Nat2Z.id, app_nth2, Nat.sub_diag by lia. cbn [nth].
  unfold set_pos. cbn [r_buf r_len r_be r_res]. rewrite u16_id by lia. reflexivity.
Qed.
Print Assumptions C27_byte_value.

Lemma get_byte_at : forall b len be pos, 0 <= pos < len -> len <= Z.of_nat (length b) -> len < 65536 ->
  get_byte (mkRd (Some b) len be POk pos) = Ok (nth (Z.to_nat pos) b 0, mkRd (Some b) len be POk (pos + 1)).
Proof.
  intros b len be pos H L M. unfold get_byte. cbn [r_res r_len r_pos r_buf is_ok negb].
  destruct (Z.leb_spec len pos); [lia|]. rewrite byte_at_ok by lia. cbn [obind].
  unfold set_pos. cbn [r_buf r_len r_be r_res]. rewrite u16_id by lia. reflexivity.
Qed.

Lemma get_byte_end : forall b len be pos, len <= pos ->
  get_byte (mkRd (Some b) len be POk pos) = Ok (0, mkRd (Some b) len be PEnd pos).
Proof.
  intros b len be pos H. unfold get_byte. cbn [r_res r_len r_pos r_buf is_ok negb].
  destruct (Z.leb_spec len pos); [|lia]. reflexivity.
Qed.

Lemma get_byte_err : forall r, r_res r <> POk -> get_byte r = Ok (0, r).
Proof.
  intros r H. unfold get_byte. destruct (is_ok (r_res r)) eqn:E; [apply is_ok_true in E; congruence|reflexivity].
Qed.

Definition num16 (be : bool) (b : list Z) (pos : nat) : Z :=
  if be then 256 * nth pos b 0 + nth (pos + 1) b 0 else nth pos b 0 + 256 * nth (pos + 1) b 0.
Definition num32 (be : bool) (b : list Z) (pos : nat) : Z :=
  if be then 65536 * num16 true b pos + num16 true b (pos + 2) else num16 false b pos + 65536 * num16 false b (pos + 2).

Lemma bytes_range16 : forall be b p, Forall byte b -> 0 <= num16 be b p < 65536.
Proof.
  intros be b p H. pose proof (byte_nth b p H). pose proof (byte_nth b (p + 1) H). unfold byte in *. unfold num16.
  destruct be; lia.
Qed.

Theorem C27_uint16 : forall b len be pos, Forall byte b -> 0 <= pos -> len <= Z.of_nat (length b) -> len < 65536 ->
  exists v r', get_u16 (mkRd (Some b) len be POk pos) = Ok (v, r') /\
    (pos + 2 <= len -> v = num16 be b (Z.to_nat pos) /\ r' = mkRd (Some b) len be POk (pos + 2)) /\
    (len < pos + 2 -> r_res r' = PEnd).
Proof.
  intros b len be pos B P L M. unfold get_u16. cbn [r_res is_ok negb r_be].
  unfold rbind. destruct (Z.le_gt_cases (pos + 2) len) as [H|H].
  - rewrite get_byte_at by lia. cbn [obind]. rewrite get_byte_at by lia. cbn [obind rret].
    eexists _, _. split; [reflexivity|]. split; [|lia]. intros _.
    replace (pos + 1 + 1) with (pos + 2) by lia. split; [|reflexivity].
    replace (Z.to_nat (pos + 1)) with (Z.to_nat pos + 1)%nat by lia.
    pose proof (bytes_range16 be b (Z.to_nat pos) B) as R. unfold num16 in *.
    rewrite !Z.shiftl_mul_pow2 by lia. change (2 ^ 8) with 256.
    destruct be; rewrite u16_id; lia.
  - destruct (Z.le_gt_cases len pos) as [K|K].
    + rewrite get_byte_end by lia. cbn [obind]. rewrite get_byte_err by (cbn; discriminate). cbn [obind rret].
      eexists _, _. split; [reflexivity|]. split; [lia|]. reflexivity.
    + rewrite get_byte_at by lia. cbn [obind]. rewrite get_byte_end by lia. cbn [obind rret].
      eexists _, _. split; [reflexivity|]. split; [lia|]. reflexivity.
Qed.
Print Assumptions C27_uint16.

Theorem C27_uint32 : forall b len be pos, Forall byte b -> 0 <= pos -> len <= Z.of_nat (length b) -> len < 65536 ->
  exists v r', get_u32 (mkRd (Some b) len be POk pos) = Ok (v, r') /\
    (pos + 4 <= len -> v = num32 be b (Z.to_nat pos) /\ r' = mkRd (Some b) len be POk (pos + 4)) /\
    (len < pos + 4 -> r_res r' = PEnd).
Proof.
  intros b len be pos B P L M. unfold get_u32. cbn [r_be]. unfold rbind.
  assert (X : forall p, 0 <= p -> len <= p -> forall k : Z -> reader Z,
    (do x <- get_byte (mkRd (Some b) len be POk p); let '(a, r') := x in k a r') = k 0 (mkRd (Some b) len be PEnd p)).
  { intros p _ Hp k. rewrite get_byte_end by lia. reflexivity. }
  assert (Y : forall p (k : Z -> reader Z),
    (do x <- get_byte (mkRd (Some b) len be PEnd p); let '(a, r') := x in k a r') = k 0 (mkRd (Some b) len be PEnd p)).
  { intros p k. rewrite get_byte_err by (cbn; discriminate). reflexivity. }
  assert (W : forall p (k : Z -> reader Z), 0 <= p < len ->
    (do x <- get_byte (mkRd (Some b) len be POk p); let '(a, r') := x in k a r') = k (nth (Z.to_nat p) b 0) (mkRd (Some b) len be POk (p + 1))).
  { intros p k Hp. rewrite get_byte_at by lia. reflexivity. }
  destruct (Z.le_gt_cases (pos + 4) len) as [H|H].
  - rewrite W by lia. cbn beta. rewrite W by lia. cbn beta. rewrite W by lia. cbn beta. rewrite W by lia. unfold rret.
    eexists _, _. split; [reflexivity|]. split; [|lia]. intros _.
    replace (pos + 1 + 1 + 1 + 1) with (pos + 4) by lia. split; [|reflexivity].
    replace (Z.to_nat (pos + 1 + 1 + 1)) with (Z.to_nat pos + 2 + 1)%nat by lia.
    replace (Z.to_nat (pos + 1 + 1)) with (Z.to_nat pos + 2)%nat by lia.
    replace (Z.to_nat (pos + 1)) with (Z.to_nat pos + 1)%nat by lia.
    pose proof (bytes_range16 be b (Z.to_nat pos) B). pose proof (bytes_range16 be b (Z.to_nat pos + 2) B).
    unfold num32, num16 in *. rewrite !Z.shiftl_mul_pow2 by lia.
    change (2 ^ 8) with 256. change (2 ^ 16) with 65536. change (2 ^ 24) with 16777216.
    destruct be; rewrite u32_id; lia.
  - destruct (Z.le_gt_cases len pos); [rewrite X by lia; cbn beta; rewrite !Y; unfold rret; eexists _, _; split; [reflexivity|]; split; [lia|reflexivity]|].
    rewrite W by lia; cbn beta.
    destruct (Z.le_gt_cases len (pos + 1)); [rewrite X by lia; cbn beta; rewrite !Y; unfold rret; eexists _, _; split; [reflexivity|]; split; [lia|reflexivity]|].
    rewrite W by lia; cbn beta.
    destruct (Z.le_gt_cases len (pos + 1 + 1)); [rewrite X by lia; cbn beta; rewrite !Y; unfold rret; eexists _, _; split; [reflexivity|]; split; [lia|reflexivity]|].
    rewrite W by lia; cbn beta. rewrite X by lia. unfold rret. eexists _, _. split; [reflexivity|]. split; [lia|reflexivity].
Qed.
Print Assumptions C27_uint32.

Theorem C27_mem : forall b len be pos n, 0 <= pos -> 0 <= n -> len <= Z.of_nat (length b) -> len < 65536 ->
  get_mem n (mkRd (Some b) len be POk pos) =
    if pos + n <=? len then Ok (Some (firstn (Z.to_nat n) (skipn (Z.to_nat pos) b)), mkRd (Some b) len be POk (pos + n))
    else Ok (None, mkRd (Some b) len be PEnd pos).
Proof.
  intros b len be pos n P N L M. unfold get_mem. cbn [r_res is_ok negb r_len r_pos r_buf].
  destruct (Z.ltb_spec len (pos + n)); destruct (Z.leb_spec (pos + n) len); try lia; [reflexivity|].
  rewrite slice_ok by lia. cbn [obind]. unfold set_pos. cbn [r_buf r_len r_be r_res]. rewrite u16_id by lia. reflexivity.
Qed.
Print Assumptions C27_mem.

(** A missing buffer is reported, not used. *)
Theorem C27_null_pointer : forall len be pos, 0 <= pos < len ->
  get_byte (mkRd None len be POk pos) = Ok (0, mkRd None len be PNull pos) /\
  get_mem 1 (mkRd None len be POk pos) = Ok (None, mkRd None len be PNull pos).
Proof.
  intros len be pos H. unfold get_byte, get_mem. cbn [r_res is_ok negb r_len r_pos r_buf].
  destruct (Z.leb_spec len pos); [lia|]. destruct (Z.ltb_spec len (pos + 1)); [lia|]. split; reflexivity.
Qed.
Print Assumptions C27_null_pointer.

(** The parsers built from the primitive readers: block header, control block,
    alarm frames, PNIO status, RPC header and NDR data, read and write requests,
    port and interface adjustments, for any received data. *)
Definition never_outside {A} (m : reader A) : Prop :=
  forall buf be e pos, Forall byte buf -> Z.of_nat (length buf) < 65536 -> 0 <= pos < 65536 ->
  exists a r', m (mkRd (Some buf) (Z.of_nat (length buf)) be e pos) = Ok (a, r') /\
    pos <= r_pos r' <= Z.max pos (Z.of_nat (length buf)) /\
    (e <> POk -> r_res r' = e /\ r_pos r' = pos).

Lemma safe_never : forall A (m : reader A) P, safe true m P -> never_outside m.
Proof.
  intros A m P H buf be e pos B L Q.
  destruct (H (mkRd (Some buf) (Z.of_nat (length buf)) be e pos)) as (a & r' & E & _ & S1).
  { unfold rok; cbn [r_pos r_len r_buf]. repeat split; try lia. exact B. }
  exists a, r'. destruct S1 as (S1 & S2 & S3 & S4 & _). cbn [r_buf r_len r_pos r_res] in *. auto.
Qed.

Theorem C27_parsers : forall d1 d2 d3, length d1 = 8%nat -> length d2 = 8%nat -> length d3 = 8%nat ->
  never_outside get_block_header /\ never_outside (get_control d1) /\ never_outside get_alarm_fixed /\
  never_outside get_alarm_data /\ (forall x y, never_outside (get_alarm_ack x y)) /\ never_outside get_pnio_status /\
  never_outside (get_dce_rpc_header d1 d2 d3) /\ never_outside get_ndr /\
  never_outside (get_write_request d1) /\ never_outside (get_read_request d1 d2) /\
  never_outside get_boundary /\ never_outside get_interface_adjust.
Proof.
  intros d1 d2 d3 L1 L2 L3. repeat split; try intros; eapply safe_never;
  first [apply safe_block_header|apply safe_control; assumption|apply safe_alarm_fixed|apply safe_alarm_data|apply safe_alarm_ack
        |apply safe_pnio_status|apply safe_rpc_header; assumption|apply safe_ndr|apply safe_write_request; assumption
        |apply safe_read_request; assumption|apply safe_boundary|apply safe_interface_adjust].
Qed.
Print Assumptions C27_parsers.

Example C27_ex : run_rops [RU16; RMem 2; RU32; RByte] (mkRd (Some [1; 2; 3; 4; 5; 6]) 6 true POk 0)
  = Ok ([VNum 258; VMem (Some [3; 4]); VNum 84279296; VNum 0], mkRd (Some [1; 2; 3; 4; 5; 6]) 6 true PEnd 6).
Proof. reflexivity. Qed.

(** * C29 *)

(** Connect requests: the tables of an IOCR and the fields of the AR block. *)
Theorem C29_iocr_tables : forall capapi cap mac buf be e pos, length mac = 6%nat ->
  Forall byte buf -> Z.of_nat (length buf) < 65536 -> 0 <= pos < 65536 ->
  exists ok p r', get_iocr_param capapi cap mac (mkRd (Some buf) (Z.of_nat (length buf)) be e pos) = Ok ((ok, p), r') /\
    (length (i_apis p) <= capapi)%nat /\
    Forall (fun a => (length (ae_data a) <= cap /\ length (ae_iocs a) <= cap)%nat) (i_apis p).
Proof.
  intros capapi cap mac buf be e pos Lm B L Q.
  destruct (safe_iocr_param true capapi cap mac Lm (mkRd (Some buf) (Z.of_nat (length buf)) be e pos)) as ([ok p] & r' & E & [H1 H2] & _).
  { unfold rok; cbn [r_pos r_len r_buf]. repeat split; try lia. exact B. }
  exists ok, p, r'. cbn [snd] in *. auto.
Qed.
Print Assumptions C29_iocr_tables.

Theorem C29_ar_block : forall o1 o2 mac name buf be e pos,
  length o1 = 8%nat -> length o2 = 8%nat -> length mac = 6%nat -> length name = 241%nat ->
  Forall byte buf -> Z.of_nat (length buf) < 65536 -> 0 <= pos < 65536 ->
  exists p r', get_ar_param o1 o2 mac name (mkRd (Some buf) (Z.of_nat (length buf)) be e pos) = Ok (p, r') /\
    length (ar_name p) = 241%nat.
Proof.
  intros o1 o2 mac name buf be e pos L1 L2 L3 L4 B L Q.
  destruct (safe_ar_param true o1 o2 mac name L1 L2 L3 L4 (mkRd (Some buf) (Z.of_nat (length buf)) be e pos)) as (p & r' & E & H1 & _).
  { unfold rok; cbn [r_pos r_len r_buf]. repeat split; try lia. exact B. }
  exists p, r'. auto.
Qed.
Print Assumptions C29_ar_block.

(** Finding: the station name of a peer to check has a table of 241 bytes, the
    length in the request may be up to 255. *)
Theorem C29_check_peer_refuted : exists buf,
  Forall byte buf /\
  get_check_peer (repeat 0 256) (repeat 0 241) (mkRd (Some buf) (Z.of_nat (length buf)) true POk 0) = Ub.
Proof.
  exists ([1; 65; 250] ++ repeat 65 250). split.
  - apply Forall_app. split; [repeat constructor; unfold byte; lia|]. apply Forall_forall. intros x Hx.
    apply repeat_spec in Hx. subst. unfold byte; lia.
  - vm_compute. reflexivity.
Qed.
Print Assumptions C29_check_peer_refuted.

(** Even two bytes are enough, because the terminator is written also if the name
    itself is missing. *)
Theorem C29_check_peer_short_refuted :
  get_check_peer (repeat 0 256) (repeat 0 241) (mkRd (Some [0; 245]) 2 true POk 0) = Ub.
Proof. vm_compute. reflexivity. Qed.
Print Assumptions C29_check_peer_short_refuted.

(** It is safe exactly when the length of the station name is at most 240. *)
Theorem C29_check_peer_partial : forall port station r,
  rok r -> length port = 256%nat -> length station = 241%nat ->
  match (rdo n <- get_byte; rdo _ <- get_mem_into 256 port n; get_byte) r with
  | Ok (k, _) => (get_check_peer port station r = Ub <-> 240 < k)
  | _ => False
  end.
Proof.
  intros port station r R Lp Ls. unfold get_check_peer, rbind.
  destruct (safe_byte true r R) as (n & r1 & E1 & Bn & S1). unfold byte in Bn. rewrite E1. cbn [obind].
  pose proof (rok_step _ _ _ R S1) as R1.
  destruct (safe_mem_into true 256 port n ltac:(lia) ltac:(lia) r1 R1) as (p & r2 & E2 & Bp & S2). rewrite E2. cbn [obind].
  pose proof (rok_step _ _ _ R1 S2) as R2.
  destruct (safe_put_nul true p n ltac:(lia) r2 R2) as (p' & r3 & E3 & _ & S3). rewrite E3. cbn [obind].
  assert (r3 = r2).
  { unfold put_nul in E3. destruct (Nat.ltb _ _); [|discriminate]. injection E3. auto. }
  subst r3.
  destruct (safe_byte true r2 R2) as (k & r4 & E4 & Bk & S4). unfold byte in Bk. rewrite E4. cbn [obind].
  pose proof (rok_step _ _ _ R2 S4) as R4.
  destruct (Z.le_gt_cases k 240) as [K|K].
  - destruct (safe_mem_into true 241 station k ltac:(lia) ltac:(lia) r4 R4) as (s & r5 & E5 & Bs & S5). rewrite E5. cbn [obind].
    pose proof (rok_step _ _ _ R4 S5) as R5.
    destruct (safe_put_nul true s k ltac:(lia) r5 R5) as (s' & r6 & E6 & _ & S6). rewrite E6. cbn [obind rret].
    split; [discriminate|lia].
  - split; [lia|intros _].
    unfold get_mem_into. destruct (safe_mem true k ltac:(lia) r4 R4) as (o & r5 & E5 & Bs & S5). rewrite E5. cbn [obind].
    destruct o as [v|].
    + destruct (Z.ltb_spec 241 k); [reflexivity|]. cbn [obind]. unfold put_nul.
      rewrite app_length, skipn_length.
      destruct (Nat.ltb_spec (Z.to_nat k) (length v + (length station - Z.to_nat k))); [lia|reflexivity].
    + cbn [obind]. unfold put_nul. destruct (Nat.ltb_spec (Z.to_nat k) (length station)); [lia|reflexivity].
Qed.
Print Assumptions C29_check_peer_partial.

(** Finding: the number of sub-modules of an expected module is not compared with
    the table that it fills, and entries are written even after the data has
    ended: a request of 18 bytes is enough. *)
Definition one_module (ns : Z) : list Z :=
  [0; 1; 0; 0; 0; 0; 0; 1; 0; 0; 0; 1; 0; 0; ns / 256; ns mod 256].

Theorem C29_expected_submodules_refuted : forall slots, (0 < slots)%nat ->
  exists buf, length buf = 16%nat /\ Forall byte buf /\
  get_exp_api_module (mkCaps 1 slots 16) [] (mkRd (Some buf) (Z.of_nat (length buf)) true POk 0) = Ub.
Proof.
  intros slots H. exists (one_module 17). split; [reflexivity|].
  split; [unfold one_module; repeat (apply Forall_cons; [unfold byte; cbn; lia|]); apply Forall_nil|].
  destruct slots; [lia|]. vm_compute. reflexivity.
Qed.
Print Assumptions C29_expected_submodules_refuted.

(** The number of APIs and the number of modules per API always stay within
    their tables. *)
Definition ident_fits (c : caps) (l : list expapi) : Prop :=
  (length l <= c_api c)%nat /\ Forall (fun a => (length (ea_mods a) <= c_slots c)%nat) l.

Lemma set_nth_length : forall A (l : list A) i v, (i < length l)%nat -> length (set_nth l i v) = length l.
Proof.
  intros A l i v H. unfold set_nth. rewrite app_length, firstn_length. cbn [length]. rewrite skipn_length. lia.
Qed.

Lemma set_nth_forall : forall A (P : A -> Prop) l i v, Forall P l -> P v -> Forall P (set_nth l i v).
Proof.
  intros A P l i v H V. unfold set_nth. apply Forall_app. split.
  - apply Forall_forall. intros x Hx. rewrite Forall_forall in H. apply H.
    rewrite <- (firstn_skipn i l). apply in_or_app. left. exact Hx.
  - constructor; [exact V|]. apply Forall_forall. intros x Hx. rewrite Forall_forall in H. apply H.
    rewrite <- (firstn_skipn (S i) l). apply in_or_app. right. exact Hx.
Qed.

Lemma find_api_bound : forall l ix a found j, find_api l ix a found = Some j ->
  found = Some j \/ (ix <= j < ix + length l)%nat.
Proof.
  induction l as [|e l IH]; intros ix a found j H; cbn [find_api length] in *; [left; exact H|].
  apply IH in H. destruct H as [H|H].
  - destruct (ea_valid e && (ea_api e =? a)); [injection H as <-; right; lia|left; exact H].
  - right. lia.
Qed.

Lemma fill_ok : forall A cap n ix (m : reader A) r v r', fill cap ix n m r = Ok (v, r') -> length v = n /\ (n = 0 \/ ix + n <= cap)%nat.
Proof.
  intros A cap n. induction n as [|n IH]; intros ix m r v r' H; cbn [fill] in H.
  - unfold rret in H. inversion H; subst. auto.
  - destruct (Nat.leb_spec cap ix); [discriminate|]. unfold rbind in H.
    destruct (m r) as [[a r1]| |]; cbn [obind] in H; try discriminate.
    destruct (fill cap (S ix) n m r1) as [[l r2]| |] eqn:E; cbn [obind] in H; try discriminate.
    unfold rret in H. inversion H; subst. apply IH in E. destruct E as [E1 E2]. cbn [length]. split; [lia|]. right. lia.
Qed.

Definition mods_fit (c : caps) (a : expapi) : Prop :=
  (length (ea_mods a) <= c_slots c)%nat /\ Forall (fun m => (length (em_subs m) <= c_subslots c)%nat) (ea_mods a).

Lemma exp_loop_fits : forall c n cur apis r apis' r',
  (length apis <= c_api c)%nat -> Forall (mods_fit c) apis ->
  exp_loop c n cur apis r = Ok (apis', r') -> (length apis' <= c_api c)%nat /\ Forall (mods_fit c) apis'.
Proof.
  intros c n. induction n as [|n IH]; intros cur apis r apis' r' L F E; cbn [exp_loop] in E.
  - unfold rret in E. inversion E; subst. auto.
  - unfold rbind at 1 in E. destruct (get_u32 r) as [[a r1]| |]; cbn [obind] in E; try discriminate.
    set (cur1 := find_api apis 0 a cur) in E. clearbody cur1.
    set (alloc := match cur1 with None => (length apis <? c_api c)%nat | Some _ => false end) in E.
    set (cur2 := if alloc then Some (length apis) else cur1) in E.
    set (apis1 := if alloc then apis ++ [mkExpapi false a []] else apis) in E.
    assert (L1 : (length apis1 <= c_api c)%nat).
    { unfold apis1. destruct alloc eqn:Ea; [|exact L]. unfold alloc in Ea. destruct cur1; [discriminate|].
      apply Nat.ltb_lt in Ea. rewrite app_length. cbn [length]. lia. }
    assert (F1 : Forall (mods_fit c) apis1).
    { unfold apis1. destruct alloc; [|exact F]. apply Forall_app. split; [exact F|]. constructor; [|constructor].
      split; cbn; [lia|constructor]. }
    clearbody apis1. clearbody cur2. clear alloc.
    destruct cur2 as [ix|].
    + unfold rbind at 1 in E. destruct (get_u16 r1) as [[slot r2]| |]; cbn [obind] in E; try discriminate.
      destruct (nth_error apis1 ix) as [e|] eqn:En; [|discriminate].
      assert (Fe : mods_fit c e) by (rewrite Forall_forall in F1; apply F1; eapply nth_error_In; eassumption).
      destruct (Nat.ltb_spec (length (ea_mods e)) (c_slots c)) as [Hl|Hl].
      * unfold rbind at 1 in E. destruct (get_u32 r2) as [[id r3]| |]; cbn [obind] in E; try discriminate.
        unfold rbind at 1 in E. destruct (get_u16 r3) as [[p r4]| |]; cbn [obind] in E; try discriminate.
        unfold rbind at 1 in E. destruct (get_u16 r4) as [[ns r5]| |]; cbn [obind] in E; try discriminate.
        unfold rbind at 1 in E.
        destruct (fill (c_subslots c) 0 (Z.to_nat ns) get_exp_submodule r5) as [[subs r6]| |] eqn:Ef; cbn [obind] in E; try discriminate.
        apply fill_ok in Ef. destruct Ef as [Es El].
        eapply IH; [| |exact E].
        -- rewrite set_nth_length; [exact L1|]. apply nth_error_Some. congruence.
        -- apply set_nth_forall; [exact F1|]. destruct Fe as [Fe1 Fe2]. split; cbn [ea_mods].
           ++ rewrite app_length. cbn [length]. lia.
           ++ apply Forall_app. split; [exact Fe2|]. constructor; [|constructor]. cbn [em_subs]. lia.
      * eapply IH; [exact L1|exact F1|exact E].
    + eapply IH; [exact L1|exact F1|exact E].
Qed.

Theorem C29_api_and_module_tables : forall c apis r apis' r',
  (length apis <= c_api c)%nat -> Forall (mods_fit c) apis ->
  get_exp_api_module c apis r = Ok (apis', r') ->
  (length apis' <= c_api c)%nat /\
  Forall (fun a => (length (ea_mods a) <= c_slots c)%nat /\
                   Forall (fun m => (length (em_subs m) <= c_subslots c)%nat) (ea_mods a)) apis'.
Proof.
  intros c apis r apis' r' L F E. unfold get_exp_api_module, rbind in E.
  destruct (get_u16 r) as [[n r1]| |]; cbn [obind] in E; try discriminate.
  eapply exp_loop_fits; eassumption.
Qed.
Print Assumptions C29_api_and_module_tables.

(** * C45 *)

(** ** Specification: the module descriptions of a block, as they are on the wire *)

(** Parses the same bytes without any table: the list of (API, module). *)
Fixpoint wire_modules (n : nat) : reader (list (Z * expmod)) :=
  match n with
  | O => rret []
  | S k => rdo a <- get_u32; rdo slot <- get_u16; rdo id <- get_u32; rdo p <- get_u16; rdo ns <- get_u16;
           rdo subs <- fill (Z.to_nat ns) 0 (Z.to_nat ns) get_exp_submodule;
           rdo rest <- wire_modules k; rret ((a, mkExpmod slot id p subs) :: rest)
  end.

Definition recorded (apis : list expapi) (a : Z) (m : expmod) : Prop :=
  exists e, In e apis /\ ea_api e = a /\ In m (ea_mods e).

(** Finding: after the first new API of a block every further module of another
    new API is recorded under the first one. *)
Definition two_apis : list Z :=
  [0; 2;
   0; 0; 0; 0; 0; 1; 0; 0; 0; 1; 0; 0; 0; 0;
   0; 0; 0; 7; 0; 2; 0; 0; 0; 2; 0; 0; 0; 0].

Theorem C45_two_new_apis_refuted : exists m apis' r',
  (rdo n <- get_u16; wire_modules (Z.to_nat n)) (mkRd (Some two_apis) (Z.of_nat (length two_apis)) true POk 0)
    = Ok ([(0, mkExpmod 1 1 0 []); (7, m)], r') /\ r_res r' = POk /\
  get_exp_api_module (mkCaps 2 4 4) [] (mkRd (Some two_apis) (Z.of_nat (length two_apis)) true POk 0) = Ok (apis', r') /\
  ~ recorded apis' 7 m /\ recorded apis' 0 m.
Proof.
  eexists (mkExpmod 2 2 0 []), _, _. split; [vm_compute; reflexivity|]. split; [reflexivity|]. split; [vm_compute; reflexivity|]. split.
  - intros (e & [<-|[]] & E & _). cbn in E. discriminate.
  - eexists. split; [left; reflexivity|]. split; [reflexivity|]. right. left. reflexivity.
Qed.
Print Assumptions C45_two_new_apis_refuted.

(** A fresh or well-formed table: every entry in use is valid and the API numbers
    differ. *)
Definition table_ok (l : list expapi) : Prop :=
  Forall (fun e => ea_valid e = true) l /\ NoDup (map ea_api l).

Lemma find_api_none : forall l ix a found, Forall (fun e => ea_api e <> a) l -> find_api l ix a found = found.
Proof.
  induction l as [|e l IH]; intros ix a found F; cbn [find_api]; [reflexivity|].
  inversion F as [|? ? H1 H2]; subst. rewrite IH by assumption.
  destruct (Z.eqb_spec (ea_api e) a); [congruence|]. rewrite andb_false_r. reflexivity.
Qed.

Lemma find_api_some : forall l ix a found k e, table_ok l -> nth_error l k = Some e -> ea_api e = a ->
  find_api l ix a found = Some (ix + k)%nat.
Proof.
  induction l as [|e0 l IH]; intros ix a found k e [V N] H A; [destruct k; discriminate|].
  cbn [find_api map] in *. inversion V as [|? ? V1 V2]; subst. inversion N as [|? ? N1 N2]; subst.
  destruct k as [|k]; cbn [nth_error] in H.
  - injection H as ->. rewrite V1, Z.eqb_refl. cbn [andb]. rewrite find_api_none.
    + f_equal. lia.
    + apply Forall_forall. intros x Hx E. apply N1. rewrite <- E. apply in_map. exact Hx.
  - rewrite (IH (S ix) (ea_api e) _ k e (conj V2 N2) H eq_refl). f_equal. lia.
Qed.

Lemma find_api_pres : forall l a, (exists k e, nth_error l k = Some e /\ ea_api e = a) \/ Forall (fun e => ea_api e <> a) l.
Proof.
  induction l as [|e l IH]; intros a; [right; constructor|].
  destruct (Z.eq_dec (ea_api e) a) as [E|E]; [left; exists 0%nat, e; auto|].
  destruct (IH a) as [(k & x & H1 & H2)|H]; [left; exists (S k), x; auto|right; constructor; assumption].
Qed.

Lemma set_nth_in : forall A (l : list A) i v, In v (set_nth l i v).
Proof. intros. unfold set_nth. apply in_or_app. right. left. reflexivity. Qed.

Lemma set_nth_map : forall A B (f : A -> B) l i v e, nth_error l i = Some e -> f v = f e -> map f (set_nth l i v) = map f l.
Proof.
  intros A B f l i v e H E. unfold set_nth. rewrite map_app. cbn [map]. rewrite E.
  rewrite <- (firstn_skipn i l) at 3. rewrite map_app. f_equal.
  revert i H. induction l as [|x l IH]; intros [|i] H; try discriminate; cbn [nth_error skipn map] in *.
  - injection H as ->. reflexivity.
  - apply IH. exact H.
Qed.

Lemma fill_cap : forall A n cap ix ix0 cap0 (m : reader A) r, (ix + n <= cap)%nat -> (ix0 + n <= cap0)%nat ->
  fill cap ix n m r = fill cap0 ix0 n m r.
Proof.
  intros A n. induction n as [|n IH]; intros cap ix ix0 cap0 m r H H0; [reflexivity|]. cbn [fill].
  destruct (Nat.leb_spec cap ix); [lia|]. destruct (Nat.leb_spec cap0 ix0); [lia|].
  unfold rbind. destruct (m r) as [[a r1]| |]; cbn [obind]; try reflexivity.
  rewrite (IH cap (S ix) (S ix0) cap0 m r1) by lia. reflexivity.
Qed.

(** A block whose modules all belong to one API (for example a block with a single
    module): every module with no more than the supported number of sub-modules is
    recorded under its API, as long as there is room, and what was recorded before
    stays. *)
Lemma one_api_loop : forall c n apis r mods r' a ix e,
  table_ok apis -> nth_error apis ix = Some e -> ea_api e = a ->
  wire_modules n r = Ok (mods, r') ->
  Forall (fun x => fst x = a /\ (length (em_subs (snd x)) <= c_subslots c)%nat) mods ->
  (length (ea_mods e) + n <= c_slots c)%nat ->
  exists apis', exp_loop c n (Some ix) apis r = Ok (apis', r') /\ table_ok apis' /\
    Forall (fun x => recorded apis' (fst x) (snd x)) mods /\
    (forall b m, recorded apis b m -> recorded apis' b m).
Proof.
  intros c n. induction n as [|n IH]; intros apis r mods r' a ix e T Hn Ha W F R.
  - cbn [wire_modules exp_loop] in *. unfold rret in *. inversion W; subst. exists apis. auto.
  - cbn [wire_modules exp_loop] in *. unfold rbind at 1 in W. unfold rbind at 1.
    destruct (get_u32 r) as [[x r1]| |]; cbn [obind] in *; try discriminate.
    unfold rbind at 1 in W.
    destruct (get_u16 r1) as [[slot r2]| |] eqn:E2; cbn [obind] in W; try discriminate.
    unfold rbind at 1 in W. destruct (get_u32 r2) as [[id r3]| |] eqn:E3; cbn [obind] in W; try discriminate.
    unfold rbind at 1 in W. destruct (get_u16 r3) as [[p r4]| |] eqn:E4; cbn [obind] in W; try discriminate.
    unfold rbind at 1 in W. destruct (get_u16 r4) as [[ns r5]| |] eqn:E5; cbn [obind] in W; try discriminate.
    unfold rbind at 1 in W.
    destruct (fill (Z.to_nat ns) 0 (Z.to_nat ns) get_exp_submodule r5) as [[subs r6]| |] eqn:E6; cbn [obind] in W; try discriminate.
    unfold rbind at 1 in W. destruct (wire_modules n r6) as [[rest r7]| |] eqn:E7; cbn [obind] in W; try discriminate.
    unfold rret in W. inversion W; subst mods r7. clear W.
    inversion F as [|y l [F1 F2] F3 [E8 E9]]. subst y l. cbn [fst snd em_subs] in F1, F2. subst x.
    rewrite (find_api_some apis 0 a (Some ix) ix e T Hn Ha). cbn [Nat.add].
    unfold rbind at 1. rewrite E2. cbn [obind]. rewrite Hn.
    destruct (Nat.ltb_spec (length (ea_mods e)) (c_slots c)) as [Hl|Hl]; [|lia].
    unfold rbind at 1. rewrite E3. cbn [obind]. unfold rbind at 1. rewrite E4. cbn [obind]. unfold rbind at 1. rewrite E5. cbn [obind].
    pose proof (proj1 (fill_ok _ _ _ _ _ _ _ _ E6)) as Ls.
    unfold rbind at 1. rewrite (fill_cap _ (Z.to_nat ns) (c_subslots c) 0 0 (Z.to_nat ns)) by lia. rewrite E6. cbn [obind].
    set (e' := mkExpapi true (ea_api e) (ea_mods e ++ [mkExpmod slot id p subs])).
    assert (Lix : (ix < length apis)%nat) by (apply nth_error_Some; congruence).
    assert (T' : table_ok (set_nth apis ix e')).
    { destruct T as [T1 T2]. split; [apply set_nth_forall; [exact T1|reflexivity]|].
      rewrite (set_nth_map _ _ ea_api apis ix e' e Hn eq_refl). exact T2. }
    assert (Hn' : nth_error (set_nth apis ix e') ix = Some e').
    { unfold set_nth. rewrite nth_error_app2 by (rewrite firstn_length; lia).
      rewrite firstn_length. replace (ix - Nat.min ix (length apis))%nat with 0%nat by lia. reflexivity. }
    destruct (IH (set_nth apis ix e') r6 rest r' a ix e' T' Hn' Ha E7 F3) as (apis' & X1 & X2 & X3 & X4).
    { unfold e'. cbn [ea_mods]. rewrite app_length. cbn [length]. lia. }
    exists apis'. split; [exact X1|]. split; [exact X2|].
    assert (K : forall b m, recorded apis b m -> recorded apis' b m).
    { intros b m (z & Z1 & Z2 & Z3). apply X4.
      destruct (In_nth_error _ _ Z1) as [j Hj]. destruct (Nat.eq_dec j ix) as [->|Hne].
      - assert (z = e) by congruence. subst z. exists e'. split; [apply set_nth_in|]. split; [exact Z2|].
        unfold e'. cbn [ea_mods]. apply in_or_app. left. exact Z3.
      - exists z. split; [|auto]. unfold set_nth. apply in_or_app.
        destruct (Nat.lt_ge_cases j ix) as [Hlt|Hge].
        + left. apply (nth_error_In _ j).
          rewrite <- (firstn_skipn ix apis) in Hj. rewrite nth_error_app1 in Hj by (rewrite firstn_length; lia). exact Hj.
        + right. right. rewrite <- (firstn_skipn (S ix) apis) in Hj.
          rewrite nth_error_app2 in Hj by (rewrite firstn_length; lia).
          eapply nth_error_In. exact Hj. }
    split; [|exact K].
    constructor; [|exact X3]. cbn [fst snd]. apply X4. exists e'. split; [apply set_nth_in|].
    split; [exact Ha|]. unfold e'. cbn [ea_mods]. apply in_or_app. right. left. reflexivity.
Qed.

Lemma rbind_ok : forall A B (m : reader A) (k : A -> reader B) r a r1, m r = Ok (a, r1) -> rbind m k r = k a r1.
Proof. intros A B m k r a r1 H. unfold rbind. rewrite H. reflexivity. Qed.

(** The block is read as a whole: [n] module descriptions, all of API [a], which
    may be new or known, with room for them. *)
Theorem C45_one_api_partial : forall c apis r n r1 mods r' a,
  table_ok apis -> get_u16 r = Ok (n, r1) -> wire_modules (Z.to_nat n) r1 = Ok (mods, r') ->
  Forall (fun x => fst x = a /\ (length (em_subs (snd x)) <= c_subslots c)%nat) mods ->
  (length apis < c_api c)%nat ->
  (forall e, In e apis -> ea_api e = a -> (length (ea_mods e) + Z.to_nat n <= c_slots c)%nat) ->
  (Z.to_nat n <= c_slots c)%nat ->
  exists apis', get_exp_api_module c apis r = Ok (apis', r') /\ table_ok apis' /\
    Forall (fun x => recorded apis' (fst x) (snd x)) mods /\
    (forall b m, recorded apis b m -> recorded apis' b m).
Proof.
  intros c apis r n r1 mods r' a T En W F La Lm Ln. unfold get_exp_api_module, rbind. rewrite En. cbn [obind].
  destruct (find_api_pres apis a) as [(ix & e & H1 & H2)|Hno].
  - destruct (Z.to_nat n) as [|k] eqn:Ek.
    { cbn [wire_modules exp_loop] in *. unfold rret in *. inversion W; subst. exists apis. auto. }
    destruct (one_api_loop c (S k) apis r1 mods r' a ix e T H1 H2 W F) as (apis' & X & Y).
    { apply Lm; [eapply nth_error_In; exact H1|exact H2]. }
    exists apis'. split; [|exact Y]. rewrite <- X. cbn [exp_loop].
    destruct (get_u32 r1) as [[x r2]| |] eqn:E2; [|unfold rbind; rewrite E2; reflexivity|unfold rbind; rewrite E2; reflexivity].
    rewrite !(rbind_ok _ _ _ _ _ _ _ E2).
    assert (x = a).
    { cbn [wire_modules] in W. unfold rbind at 1 in W. rewrite E2 in W. cbn [obind] in W.
      unfold rbind in W.
      repeat match type of W with (do _ <- ?m; _) = Ok _ => destruct m as [[? ?]| |]; cbn [obind] in W; try discriminate end.
      unfold rret in W. inversion W; subst. inversion F as [|? ? [F1 _] _]; subst. exact F1. }
    subst x.
    rewrite (find_api_some apis 0 a None ix e T H1 H2), (find_api_some apis 0 a (Some ix) ix e T H1 H2). reflexivity.
  - destruct (Z.to_nat n) as [|k] eqn:Ek.
    { cbn [wire_modules exp_loop] in *. unfold rret in *. inversion W; subst. exists apis. auto. }
    (* a new API: after its allocation the loop runs as with an entry for it *)
    set (e0 := mkExpapi true a []). set (apis0 := apis ++ [e0]).
    assert (T0 : table_ok apis0).
    { destruct T as [T1 T2]. unfold apis0. split.
      - apply Forall_app. split; [exact T1|]. constructor; [reflexivity|constructor].
      - rewrite map_app. cbn [map]. apply NoDup_rev in T2. rewrite <- (rev_involutive (map ea_api apis ++ [ea_api e0])).
        apply NoDup_rev. rewrite rev_app_distr. cbn [rev app]. constructor; [|exact T2].
        rewrite <- in_rev. rewrite in_map_iff. intros (z & Z1 & Z2). rewrite Forall_forall in Hno. apply (Hno z Z2). exact Z1. }
    assert (N0 : nth_error apis0 (length apis) = Some e0).
    { unfold apis0. rewrite nth_error_app2, Nat.sub_diag by lia. reflexivity. }
    destruct (one_api_loop c (S k) apis0 r1 mods r' a (length apis) e0 T0 N0 eq_refl W F) as (apis' & X & Y & Z1 & Z2).
    { cbn [e0 ea_mods length]. lia. }
    exists apis'. split; [|split; [exact Y|split; [exact Z1|]]].
    2:{ intros b m (z & U1 & U2 & U3). apply Z2. exists z. split; [unfold apis0; apply in_or_app; left; exact U1|auto]. }
    rewrite <- X. cbn [exp_loop].
    destruct (get_u32 r1) as [[x r2]| |] eqn:E2; [|unfold rbind; rewrite E2; reflexivity|unfold rbind; rewrite E2; reflexivity].
    rewrite !(rbind_ok _ _ _ _ _ _ _ E2).
    assert (x = a).
    { cbn [wire_modules] in W. unfold rbind at 1 in W. rewrite E2 in W. cbn [obind] in W.
      unfold rbind in W.
      repeat match type of W with (do _ <- ?m; _) = Ok _ => destruct m as [[? ?]| |]; cbn [obind] in W; try discriminate end.
      unfold rret in W. inversion W; subst. inversion F as [|? ? [F1 _] _]. exact F1. }
    subst x.
    rewrite (find_api_none apis 0 a None Hno), (find_api_some apis0 0 a (Some (length apis)) (length apis) e0 T0 N0 eq_refl).
    cbn [Nat.add].
    destruct (Nat.ltb_spec (length apis) (c_api c)); [|lia].
    destruct (get_u16 r2) as [[slot r3]| |] eqn:E3; [|unfold rbind; rewrite E3; reflexivity|unfold rbind; rewrite E3; reflexivity].
    rewrite !(rbind_ok _ _ _ _ _ _ _ E3).
    rewrite N0. rewrite nth_error_app2, Nat.sub_diag by lia. cbn [nth_error ea_mods e0 length ea_api app].
    destruct (Nat.ltb_spec 0 (c_slots c)); [|lia].
    assert (SN : forall v, set_nth (apis ++ [mkExpapi false a []]) (length apis) v = set_nth apis0 (length apis) v).
    { intros v. unfold set_nth, apis0. rewrite !firstn_app, !firstn_all, Nat.sub_diag. cbn [firstn].
      rewrite !skipn_all2 by (rewrite app_length; cbn [length]; lia). reflexivity. }
    unfold rbind. destruct (get_u32 r3) as [[id r4]| |]; cbn [obind]; try reflexivity.
    destruct (get_u16 r4) as [[p r5]| |]; cbn [obind]; try reflexivity.
    destruct (get_u16 r5) as [[ns r6]| |]; cbn [obind]; try reflexivity.
    destruct (fill (c_subslots c) 0 (Z.to_nat ns) get_exp_submodule r6) as [[subs r7]| |]; cbn [obind]; try reflexivity.
    rewrite SN. reflexivity.
Qed.
Print Assumptions C45_one_api_partial.

(** Two modules of one new API, with room for them. *)
Definition same_api : list Z :=
  [0; 2;
   0; 0; 0; 7; 0; 1; 0; 0; 0; 1; 0; 0; 0; 0;
   0; 0; 0; 7; 0; 2; 0; 0; 0; 2; 0; 0; 0; 0].
Example C45_ex : exists r1 mods r',
  table_ok [] /\ get_u16 (mkRd (Some same_api) 30 true POk 0) = Ok (2, r1) /\
  wire_modules 2 r1 = Ok (mods, r') /\ length mods = 2%nat /\ Forall (fun x => fst x = 7 /\ (length (em_subs (snd x)) <= 4)%nat) mods.
Proof.
  eexists _, _, _. split; [split; constructor|]. split; [vm_compute; reflexivity|]. split; [vm_compute; reflexivity|].
  split; [reflexivity|]. repeat constructor.
Qed.
