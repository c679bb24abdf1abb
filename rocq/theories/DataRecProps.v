(** Reads of input and output data as records (C121). *)
From Coq Require Import List ZArith Arith Bool Lia.
From Verif Require Import Base CpmModel CpmProps PpmModel PpmProps BlockModel BlockReadLemmas BlockWriteProps DiffBlockProps DataRecModel.
Import ListNotations.
Local Open Scope Z_scope.

(** * Specification *)

Definition get_bytes (n : Z) : reader (list Z) := rlist get_byte (Z.to_nat n).
(** Status of the consumer, status of the provider, data. *)
Definition get_input : reader (bhead * list Z * list Z * list Z) :=
  rdo h <- get_block_header;
  rdo n <- get_byte; rdo iocs <- get_bytes n; rdo m <- get_byte; rdo iops <- get_bytes m; rdo l <- get_u16; rdo data <- get_bytes l;
  rret (h, iocs, iops, data).
(** Whether the substitute is active, the same three; then the block of the substitute: its
    mode and the same three. *)
Record outrec := mkOut { r_head : bhead; r_active : Z; r_iocs : list Z; r_iops : list Z; r_vals : list Z;
  r_shead : bhead; r_mode : Z; r_siocs : list Z; r_siops : list Z; r_svals : list Z }.
Definition get_output : reader outrec :=
  rdo h <- get_block_header;
  rdo a <- get_u16; rdo n <- get_byte; rdo m <- get_byte; rdo l <- get_u16; rdo iocs <- get_bytes n; rdo data <- get_bytes l; rdo iops <- get_bytes m;
  rdo h2 <- get_block_header; rdo mode <- get_u16; rdo iocs2 <- get_bytes n; rdo data2 <- get_bytes l; rdo iops2 <- get_bytes m;
  rret (mkOut h a iocs iops data h2 mode iocs2 iops2 data2).
(** The record a read writes; a read without a record has no result. *)
Definition record (f : wr -> outcome (cpm * option wr)) : writer := fun w =>
  do x <- f w; match snd x with Some w' => Ok w' | None => AssertFail end.
(** The bytes [off], [len] of the newest accepted frame. *)
Definition received (h : list cobs) (off len : Z) : list Z := match latest h with Some f => part f off len | None => [] end.
Definition k_in (sdu : Z) (e : iodata) : Prop := 0 <= k_off e /\ 0 < k_len e <= 255 /\ k_off e + k_len e <= sdu.

(** * Writing and reading the blocks *)

Definition e_input (be : bool) (iocs iops data : list Z) : list Z :=
  [Z.of_nat (length iocs)] ++ iocs ++ [Z.of_nat (length iops)] ++ iops ++ e16 be (Z.of_nat (length data)) ++ data.
Definition e_sub (be : bool) (mode : Z) (iocs iops data : list Z) : list Z := e16 be mode ++ iocs ++ data ++ iops.
Definition e_output (be active : bool) (iocs iops data : list Z) (mode : Z) : list Z :=
  e16 be (if active then 1 else 0) ++ [Z.of_nat (length iocs)] ++ [Z.of_nat (length iops)] ++ e16 be (Z.of_nat (length data)) ++ iocs ++ data ++ iops ++
  eblock be 20 (e_sub be mode iocs iops data).

Lemma u8_id : forall v, 0 <= v < 256 -> u8 v = v.
Proof. intros v H. unfold u8. apply Z.mod_small. exact H. Qed.
Lemma enc_len : forall l : list Z, (length l <= 255)%nat -> enc (put_byte (u8 (Z.of_nat (length l)))) [Z.of_nat (length l)].
Proof. intros l H. rewrite u8_id by lia. apply enc_byte. unfold byte. lia. Qed.
Lemma enc_input : forall be iocs iops data, (length iocs <= 255)%nat -> (length iops <= 255)%nat -> Z.of_nat (length data) <= 60000 ->
  enc (put_input_data be iocs iops data) (eblock be 21 (e_input be iocs iops data)).
Proof.
  intros be iocs iops data A B C. unfold put_input_data. apply enc_block; [lia|unfold e_input; rewrite !app_length, e16_length; cbn [length]; lia|].
  apply enc_seq; [apply enc_len; exact A|]. apply enc_seq; [apply enc_mem|]. apply enc_seq; [apply enc_len; exact B|]. apply enc_seq; [apply enc_mem|].
  apply enc_seq; [rewrite u16_id by lia; apply enc_u16; lia|apply enc_mem].
Qed.
Lemma eblock_length : forall be ty bs, length (eblock be ty bs) = (6 + length bs)%nat.
Proof. intros. unfold eblock. rewrite !app_length, !e16_length. reflexivity. Qed.
Lemma enc_output : forall be active iocs iops data mode, (length iocs <= 255)%nat -> (length iops <= 255)%nat -> Z.of_nat (length data) <= 30000 -> 0 <= mode < 65536 ->
  enc (put_output_data be active iocs iops data mode (Some data)) (eblock be 22 (e_output be active iocs iops data mode)).
Proof.
  intros be active iocs iops data mode A B C M. unfold put_output_data.
  assert (L : length (e_sub be mode iocs iops data) = (2 + length iocs + length data + length iops)%nat) by (unfold e_sub; rewrite !app_length, e16_length; lia).
  apply enc_block; [lia|unfold e_output; rewrite !app_length, !e16_length, eblock_length, L; cbn [length]; lia|].
  apply enc_seq; [apply enc_u16; destruct active; lia|]. apply enc_seq; [apply enc_len; exact A|]. apply enc_seq; [apply enc_len; exact B|].
  apply enc_seq; [rewrite u16_id by lia; apply enc_u16; lia|]. apply enc_seq; [apply enc_mem|]. apply enc_seq; [apply enc_mem|]. apply enc_seq; [apply enc_mem|].
  unfold put_substitute_data. apply enc_block; [lia|lia|]. apply enc_seq; [apply enc_u16; exact M|]. apply enc_seq; [apply enc_mem|]. apply enc_seq; apply enc_mem.
Qed.
Lemma dec_raw : forall be (l : list Z), dec be be (get_bytes (Z.of_nat (length l))) l l.
Proof.
  intros be l. unfold get_bytes. rewrite Nat2Z.id. pose proof (dec_list Z Z be get_byte (fun x => [x]) (fun x => x) l (fun x _ => dec_byte be x)) as H.
  rewrite map_id in H. replace (flat_map (fun x : Z => [x]) l) with l in H; [exact H|]. clear H. induction l as [|x l IH]; [reflexivity|]. cbn [flat_map app]. rewrite <- IH. reflexivity.
Qed.
Lemma dec_head : forall A be ty bs (m : bhead -> reader A) x rest, 0 <= ty < 65536 -> Z.of_nat (length bs) < 65534 -> dec be be (m (mkBhead ty (2 + Z.of_nat (length bs)) 1 0)) (bs ++ rest) x ->
  dec be be (rdo h <- get_block_header; m h) (eblock be ty bs ++ rest) x.
Proof.
  intros A be ty bs m x rest T L D. unfold eblock.
  replace ((e16 be ty ++ e16 be (2 + Z.of_nat (length bs)) ++ [1; 0] ++ bs) ++ rest)
    with ((e16 be ty ++ e16 be (2 + Z.of_nat (length bs)) ++ [1; 0]) ++ bs ++ rest) by (rewrite <- !app_assoc; reflexivity).
  eapply dec_bind; [apply dec_header; lia|]. exact D.
Qed.
Lemma dec_input : forall be iocs iops data, (length iocs <= 255)%nat -> (length iops <= 255)%nat -> Z.of_nat (length data) <= 60000 ->
  dec be be get_input (eblock be 21 (e_input be iocs iops data)) (mkBhead 21 (6 + Z.of_nat (length iocs + length iops + length data)) 1 0, iocs, iops, data).
Proof.
  intros be iocs iops data A B C. assert (L : length (e_input be iocs iops data) = (4 + length iocs + length iops + length data)%nat)
    by (unfold e_input; rewrite !app_length, e16_length; cbn [length]; lia).
  rewrite <- (app_nil_r (eblock be 21 _)). unfold get_input. apply dec_head; [lia|lia|]. rewrite L, app_nil_r. unfold e_input.
  eapply dec_bind; [apply dec_byte|]. eapply dec_bind; [apply dec_raw|]. eapply dec_bind; [apply dec_byte|]. eapply dec_bind; [apply dec_raw|].
  eapply dec_bind; [apply dec_u16; lia|]. eapply dec_last; [apply dec_raw|]. replace (2 + Z.of_nat (4 + length iocs + length iops + length data)) with (6 + Z.of_nat (length iocs + length iops + length data)) by lia. reflexivity.
Qed.
Lemma dec_output : forall be iocs iops data, (length iocs <= 255)%nat -> (length iops <= 255)%nat -> Z.of_nat (length data) <= 30000 ->
  dec be be get_output (eblock be 22 (e_output be false iocs iops data 0))
    (mkOut (mkBhead 22 (16 + 2 * Z.of_nat (length iocs + length iops + length data)) 1 0) 0 iocs iops data
       (mkBhead 20 (4 + Z.of_nat (length iocs + length iops + length data)) 1 0) 0 iocs iops data).
Proof.
  intros be iocs iops data A B C.
  assert (LS : length (e_sub be 0 iocs iops data) = (2 + length iocs + length data + length iops)%nat) by (unfold e_sub; rewrite !app_length, e16_length; lia).
  assert (L : length (e_output be false iocs iops data 0) = (14 + 2 * (length iocs + length iops + length data))%nat)
    by (unfold e_output; rewrite !app_length, !e16_length, eblock_length, LS; cbn [length]; lia).
  rewrite <- (app_nil_r (eblock be 22 _)). unfold get_output. apply dec_head; [lia|lia|]. rewrite L, app_nil_r. unfold e_output.
  eapply dec_bind; [apply dec_u16; lia|]. eapply dec_bind; [apply dec_byte|]. eapply dec_bind; [apply dec_byte|]. eapply dec_bind; [apply dec_u16; lia|].
  eapply dec_bind; [apply dec_raw|]. eapply dec_bind; [apply dec_raw|]. eapply dec_bind; [apply dec_raw|].
  rewrite <- (app_nil_r (eblock be 20 _)). apply dec_head; [lia|lia|]. rewrite LS, app_nil_r. unfold e_sub.
  eapply dec_bind; [apply dec_u16; lia|]. eapply dec_bind; [apply dec_raw|]. eapply dec_bind; [apply dec_raw|]. eapply dec_last; [apply dec_raw|].
  replace (2 + Z.of_nat (14 + 2 * (length iocs + length iops + length data))) with (16 + 2 * Z.of_nat (length iocs + length iops + length data)) by lia.
  replace (2 + Z.of_nat (2 + length iocs + length data + length iops)) with (4 + Z.of_nat (length iocs + length iops + length data)) by lia. reflexivity.
Qed.

(** * The consumer status in the newest frame *)

Lemma iocs_latest : forall hold sdu sa ops c h e, 0 <= sdu < 60000 -> Forall cop_ok ops -> k_in sdu e -> crun (started hold sdu sa) [] ops = Ok (c, h) -> c_state c <> CWStart ->
  exists c' r, get_iocs c e 255 = Ok (c', r) /\ (if fst r =? 0 then snd r else []) = received h (k_off e) (k_len e).
Proof.
  intros hold sdu sa ops c h e Hs F (K1 & K2 & K3) R St.
  assert (I0 : inv11 sdu (started hold sdu sa) []).
  { unfold inv11. split; [|simpl; auto]. change (u16 (2 * 6 + 2 + 2 + sdu + 2 + 1 + 1) = sdu + 20). rewrite u16_id; lia. }
  pose proof (crun_inv_ok cop_ok (inv11 sdu) (inv11_step sdu Hs) ops _ _ _ _ F I0 R) as (A & B & C).
  unfold get_iocs. assert (E : (255 <? k_len e) || (k_len e =? 0) = false).
  { destruct (Z.ltb_spec 255 (k_len e)); [lia|]. destruct (Z.eqb_spec (k_len e) 0); [lia|reflexivity]. }
  rewrite E. assert (Q : exists c', get_buf c = (c', c_new c) /\ c_app c' = latest h /\ c_bpos c' = c_bpos c).
  { unfold get_buf. destruct (c_new c) eqn:N; [eexists; split; [reflexivity|]; simpl; tauto|]. exists c. auto. }
  destruct Q as (c' & Q1 & Q2 & Q3). rewrite Q1. exists c'. unfold buf_ptr, received. rewrite Q2, Q3.
  destruct (latest h) as [f|].
  - destruct B as (((P1 & P2 & P3) & L) & B2). unfold net_length in L. rewrite B2. rewrite slice_ok by lia. cbn [obind].
    exists (0, part f (k_off e) (k_len e)). split; [|reflexivity]. destruct (c_state c); [congruence|reflexivity|reflexivity].
  - exists (-1, []). split; [|reflexivity]. destruct (c_state c); [congruence|reflexivity|reflexivity].
Qed.
Lemma received_length : forall h off len, (length (received h off len) <= Z.to_nat len)%nat.
Proof. intros. unfold received, part. destruct (latest h); [rewrite firstn_length; lia|cbn [length]; lia]. Qed.
Lemma written_length : forall o qs y v k d r, cfg_ok o -> o_ppm o = ppm0 -> disjoint_layout o -> phist o qs y v -> In (k, d) (o_desc o) ->
  length (last_written k d r qs) = Z.to_nat (rlen d r).
Proof.
  intros o qs y v k d r C E D H K. pose proof (C15_regions_hold_last_written o qs y v k d r C E D H K) as S1.
  unfold slice in S1. destruct ((0 <=? roff d r) && (0 <=? rlen d r) && (roff d r + rlen d r <=? Z.of_nat (length (p_image (o_ppm (y_o y)))))) eqn:B; [|discriminate].
  injection S1 as <-. apply andb_true_iff in B. destruct B as (B1 & B2). apply andb_true_iff in B1. destruct B1 as (B0 & B1). apply Z.leb_le in B0, B1, B2. rewrite firstn_length, skipn_length.
  lia.
Qed.

Lemma not_empty : forall a b c : list Z, a <> [] \/ b <> [] \/ c <> [] -> empty a && empty b && empty c = false.
Proof. intros [|x a] [|y b] [|z c] H; try reflexivity. destruct H as [H|[H|H]]; contradiction. Qed.
Lemma long_not_empty : forall (l : list Z) n, length l = Z.to_nat n -> 0 < n -> l <> [].
Proof. intros l n L N E. rewrite E in L. cbn [length] in L. lia. Qed.
Lemma record_ext : forall f w' g, (forall w, f w = do x <- g w; Ok (w', Some x)) -> forall w, record f w = g w.
Proof. intros f w' g H w. unfold record. rewrite H. destruct (g w); reflexivity. Qed.
Lemma round_trip_ext : forall A be be' f g (get : reader A) x n, (forall w, f w = g w) -> round_trip be be' g get x n -> round_trip be be' f get x n.
Proof. intros A be be' f g get x n H R b len rlen pos P L N Q S. rewrite H. apply R; assumption. Qed.

(** C121: for every history of the producer and of the consumer, both running, the input
    record of a submodule tells the controller the data and the provider status the
    application wrote last and the consumer status in the newest accepted frame of the
    controller (none: no bytes). *)
Theorem C121_input : forall o qs y v k d hold sdu sa ops c h e, cfg_ok o -> o_ppm o = ppm0 -> disjoint_layout o -> phist o qs y v -> In (k, d) (o_desc o) ->
  v_run v = true -> 0 < s_len d <= 255 ->
  0 <= sdu < 60000 -> Forall cop_ok ops -> crun (started hold sdu sa) [] ops = Ok (c, h) -> c_state c <> CWStart -> k_in sdu e ->
  let iocs := received h (k_off e) (k_len e) in
  let iops := last_written k d RIops qs in
  let data := last_written k d RData qs in
  let n := (length iocs + length iops + length data)%nat in
  round_trip true true (record (read_input (y_o y) k c (Some e))) get_input (mkBhead 21 (6 + Z.of_nat n) 1 0, iocs, iops, data) (10 + n).
Proof.
  intros o qs y v k d hold sdu sa ops c h e C E D H K RN SL Hs F R St KI iocs iops data n.
  destruct (C16_read_back o qs y v k d 1500 255 C E D H K) as (RB & _).
  assert (RG : in_image o (d_off d) (d_len d)) by (destruct (cfg_desc _ C _ _ K) as (X & _); exact X). destruct RG as (R1 & R2 & R3). pose proof (cfg_sdu _ C) as CS.
  specialize (RB RN ltac:(lia) ltac:(lia)). fold data iops in RB.
  destruct (iocs_latest hold sdu sa ops c h e Hs F KI R St) as (c' & r & G & Q). fold iocs in Q.
  pose proof (written_length o qs y v k d RIops C E D H K) as L1. fold iops in L1. cbn [rlen] in L1.
  pose proof (written_length o qs y v k d RData C E D H K) as L2. fold data in L2. cbn [rlen] in L2.
  pose proof (received_length h (k_off e) (k_len e)) as L3. fold iocs in L3. destruct KI as (KI1 & KI2 & KI3).
  assert (EX : forall w, record (read_input (y_o y) k c (Some e)) w = put_input_data true iocs iops data w).
  { apply (record_ext _ c'). intros w. unfold read_input. rewrite RB. cbn [obind]. rewrite G. cbn [obind]. destruct r as [rv rl]. cbn [fst snd] in Q. rewrite Q.
    rewrite not_empty; [reflexivity|]. right. left. apply (long_not_empty _ _ L1). lia. }
  apply (round_trip_ext _ _ _ _ _ _ _ _ EX).
  pose proof (rt_of _ _ _ _ _ _ _ (enc_input true iocs iops data ltac:(lia) ltac:(lia) ltac:(lia)) (dec_input true iocs iops data ltac:(lia) ltac:(lia) ltac:(lia))) as RT.
  rewrite eblock_length in RT. unfold e_input in RT. rewrite !app_length, e16_length in RT. cbn [length] in RT.
  replace (10 + n)%nat with (6 + (1 + (length iocs + (1 + (length iops + (2 + length data))))))%nat by (unfold n; lia). exact RT.
Qed.
Print Assumptions C121_input.

(** C121: the output record tells the data and the provider status in the newest accepted
    frame and the consumer status the application wrote last; the substitute is told as not
    active, with mode 0 and the same values. *)
Theorem C121_output : forall o qs y v k d hold sdu sa ops c h e, cfg_ok o -> o_ppm o = ppm0 -> disjoint_layout o -> phist o qs y v -> In (k, d) (o_desc o) ->
  v_run v = true -> 0 < k_len d <= 255 ->
  0 <= sdu < 60000 -> Forall cop_ok ops -> crun (started hold sdu sa) [] ops = Ok (c, h) -> c_state c <> CWStart -> desc_in sdu e -> d_len e <= 1500 -> s_len e <= 255 ->
  let iocs := last_written k d RIocs qs in
  let iops := received h (s_off e) (s_len e) in
  let data := received h (d_off e) (d_len e) in
  let n := (length iocs + length iops + length data)%nat in
  round_trip true true (record (read_output (y_o y) k c (Some e))) get_output
    (mkOut (mkBhead 22 (16 + 2 * Z.of_nat n) 1 0) 0 iocs iops data (mkBhead 20 (4 + Z.of_nat n) 1 0) 0 iocs iops data) (20 + 2 * n).
Proof.
  intros o qs y v k d hold sdu sa ops c h e C E D H K RN KL Hs F R St DI DL SL iocs iops data n.
  pose proof (C16_read_back_iocs o qs y v k d 255 C E D H K RN ltac:(lia)) as RB. fold iocs in RB.
  destruct (C11_read_returns_latest hold sdu sa ops c h e 1500 255 Hs F DI R St DL SL) as (c' & new & G).
  pose proof (written_length o qs y v k d RIocs C E D H K) as L1. fold iocs in L1. cbn [rlen] in L1.
  pose proof (received_length h (s_off e) (s_len e)) as L2. fold iops in L2. pose proof (received_length h (d_off e) (d_len e)) as L3. fold data in L3.
  assert (EX : forall w, record (read_output (y_o y) k c (Some e)) w = put_output_data true false iocs iops data 0 (Some data) w).
  { apply (record_ext _ c'). intros w. unfold read_output. rewrite G. cbn [obind]. rewrite RB. cbn [obind].
    replace (if CpmModel.r_ret _ =? 0 then _ else _) with (data, iops) by (unfold data, iops, received; destruct (latest h); reflexivity).
    rewrite not_empty; [reflexivity|]. right. right. apply (long_not_empty _ _ L1). lia. }
  apply (round_trip_ext _ _ _ _ _ _ _ _ EX). destruct DI as (D1 & D2 & D3 & D4 & D5 & D6).
  pose proof (rt_of _ _ _ _ _ _ _ (enc_output true false iocs iops data 0 ltac:(lia) ltac:(lia) ltac:(lia) ltac:(lia)) (dec_output true iocs iops data ltac:(lia) ltac:(lia) ltac:(lia))) as RT.
  rewrite eblock_length in RT. unfold e_output, e_sub in RT. rewrite !app_length, eblock_length, !app_length, !e16_length in RT. cbn [length] in RT.
  replace (20 + 2 * n)%nat with (6 + (2 + (1 + (1 + (2 + (length iocs + (length data + (length iops + (6 + (2 + (length iocs + (length data + length iops))))))))))))%nat by (unfold n; lia). exact RT.
Qed.
Print Assumptions C121_output.

(** C121: a submodule that neither the producer nor the consumer knows has no record, and a
    connection whose producer and consumer do not run has none either. *)
Theorem C121_none : forall o k c e w, (forall d, In (k, d) (o_desc o) -> p_state (o_ppm o) = PWStart) -> (e = None \/ c_state c = CWStart) ->
  read_input o k c e w = Ok (c, None) /\ read_output o k c e w = Ok (c, None).
Proof.
  intros o k c e w H Q. assert (FD : match find_desc o k with None => True | Some _ => p_state (o_ppm o) = PWStart end).
  { unfold find_desc. destruct (o_input o); [|exact I]. destruct (find (fun x => key_eqb (fst x) k) (o_desc o)) as [[k' d]|] eqn:FE; [|exact I].
    apply find_some in FE. destruct FE as (IN & KE). apply (H d). cbn [fst] in KE. replace k with k'; [exact IN|]. unfold key_eqb in KE. destruct k' as [[a b] g], k as [[a' b'] g'].
    rewrite !andb_true_iff, !Z.eqb_eq in KE. destruct KE as ((-> & ->) & ->). reflexivity. }
  assert (P1 : pget_data o k 1500 255 = Ok None) by (unfold pget_data; destruct (find_desc o k); [rewrite FD|]; reflexivity).
  assert (P2 : pget_iocs o k 255 = Ok None) by (unfold pget_iocs; destruct (find_desc o k); [rewrite FD|]; reflexivity).
  assert (G1 : match e with Some d => get_iocs c d 255 | None => Ok (c, (-1, [])) end = Ok (c, (-1, []))) by (destruct Q as [->|Q]; [reflexivity|]; destruct e; [unfold get_iocs; rewrite Q|]; reflexivity).
  assert (G2 : match e with Some d => get_data_and_iops c d 1500 255 | None => Ok (c, rd_fail) end = Ok (c, rd_fail)) by (destruct Q as [->|Q]; [reflexivity|]; destruct e; [unfold get_data_and_iops; rewrite Q|]; reflexivity).
  unfold read_input, read_output. rewrite P1, P2, G1, G2. split; reflexivity.
Qed.
Print Assumptions C121_none.

(** C121: whatever the data and the room, no byte outside the response is written. *)
Theorem C121_inside : forall iocs iops data sub mode active be, stays_inside (put_input_data be iocs iops data) /\ stays_inside (put_output_data be active iocs iops data mode sub).
Proof.
  intros. split.
  - apply inside_block. refine (inside_seq _ _ (inside_byte _) _). refine (inside_seq _ _ (inside_mem _) _). refine (inside_seq _ _ (inside_byte _) _).
    refine (inside_seq _ _ (inside_mem _) _). refine (inside_seq _ _ (inside_u16 _ _) _). apply inside_mem.
  - apply inside_block. refine (inside_seq _ _ (inside_u16 _ _) _). refine (inside_seq _ _ (inside_byte _) _). refine (inside_seq _ _ (inside_byte _) _). refine (inside_seq _ _ (inside_u16 _ _) _).
    refine (inside_seq _ _ (inside_mem _) _). refine (inside_seq _ _ (inside_mem _) _). refine (inside_seq _ _ (inside_mem _) _). destruct sub; [|exact inside_skip].
    apply inside_block. refine (inside_seq _ _ (inside_u16 _ _) _). refine (inside_seq _ _ (inside_mem _) _). refine (inside_seq _ _ (inside_mem _) _). apply inside_mem.
Qed.
Print Assumptions C121_inside.

(** C121: for the consumer a read of a record is a read by the application: it goes on as
    after [OIocs] and [ORead], and the theorems on histories (C10, C11, C13) apply. *)
Theorem C121_counts : forall o k c e w c' x, (read_input o k c (Some e) w = Ok (c', x) -> exists b, cstep c (OIocs e 255) = Ok (c', b)) /\
  (read_output o k c (Some e) w = Ok (c', x) -> exists b, cstep c (ORead e 1500 255) = Ok (c', b)).
Proof.
  intros o k c e w c' x. split; intros H.
  - unfold read_input in H. destruct (pget_data o k 1500 255) as [p| |]; try discriminate. cbn [obind] in H. destruct (match p with Some x0 => x0 | None => ([], []) end) as [dt ip].
    cbn [cstep]. destruct (get_iocs c e 255) as [[c1 [r l]]| |]; try discriminate. cbn [obind] in *. exists (BIocs (r, l)).
    destruct (empty dt && empty ip && empty (if r =? 0 then l else [])); [injection H as <- _; reflexivity|].
    destruct (put_input_data true (if r =? 0 then l else []) ip dt w); try discriminate. cbn [obind] in H. injection H as <- _. reflexivity.
  - unfold read_output in H. cbn [cstep]. destruct (get_data_and_iops c e 1500 255) as [[c1 r]| |]; try discriminate. cbn [obind] in *. exists (BRead e r).
    destruct (if CpmModel.r_ret r =? 0 then (CpmModel.r_data r, CpmModel.r_iops r) else ([], [])) as [dt ip]. destruct (pget_iocs o k 255) as [p| |]; try discriminate. cbn [obind] in H.
    destruct (empty dt && empty ip && empty (match p with Some x0 => x0 | None => [] end)); [injection H as <- _; reflexivity|].
    destruct (put_output_data true false (match p with Some x0 => x0 | None => [] end) ip dt 0 (Some dt) w); try discriminate. cbn [obind] in H. injection H as <- _. reflexivity.
Qed.
Print Assumptions C121_counts.

(** C121: so the application is not told about data that only a controller has read as a
    record: a frame is accepted, the record is read, and the application, which has not read
    the frame, is told that there are no new data. *)
Theorem C121_new_refuted : exists c h c1 c2 w w', crun (started 3 40 ex_mac) [] [OFrame (ex_frame 0 false 10 ex_pay2)] = Ok (c, h) /\ latest h <> None /\
  read_output ex_iocr (0, 1, 1) c (Some ex_desc) w = Ok (c1, Some w') /\
  get_data_and_iops c1 ex_desc 3 1 = Ok (c2, CpmModel.mkRd 0 false [2; 3; 4] [5]) /\
  exists c3, get_data_and_iops c ex_desc 3 1 = Ok (c3, CpmModel.mkRd 0 true [2; 3; 4] [5]).
Proof.
  do 4 eexists. exists (mkWr (Some (repeat 0 100)) 100 0). eexists. split; [vm_compute; reflexivity|]. split; [discriminate|].
  split; [vm_compute; reflexivity|]. split; [vm_compute; reflexivity|]. eexists. vm_compute. reflexivity.
Qed.
Print Assumptions C121_new_refuted.

(** The hypotheses are met: the producer and the consumer of the examples of C11 and C15. *)
Definition ex_ops : list pop := [QOpen true (repeat 0 1500) 1000 true; QSetData (0, 1, 1) (WBytes [170; 187]) [128]; QSetIocs (0, 1, 1) [129]].
Example C121_example : exists y v c h b b', phist ex_iocr ex_ops y v /\ v_run v = true /\
  crun (started 3 40 ex_mac) [] [OFrame (ex_frame 0 false 10 ex_pay2)] = Ok (c, h) /\ c_state c <> CWStart /\ k_in 40 ex_desc /\ desc_in 40 ex_desc /\
  record (read_input (y_o y) (0, 1, 1) c (Some ex_desc)) (mkWr (Some (repeat 0 40)) 40 0) = Ok (mkWr (Some b) 40 14) /\
  firstn 14 b = [0; 21; 0; 10; 1; 0; 1; 6; 1; 128; 0; 2; 170; 187] /\
  record (read_output (y_o y) (0, 1, 1) c (Some ex_desc)) (mkWr (Some (repeat 0 40)) 40 0) = Ok (mkWr (Some b') 40 30) /\
  firstn 30 b' = [0; 22; 0; 26; 1; 0; 0; 0; 1; 1; 0; 3; 129; 2; 3; 4; 5; 0; 20; 0; 9; 1; 0; 0; 0; 129; 2; 3; 4; 5].
Proof.
  do 6 eexists. split; [|split; [|split; [vm_compute; reflexivity|split; [discriminate|]]]].
  - change ex_ops with ((([] ++ [QOpen true (repeat 0 1500) 1000 true]) ++ [QSetData (0, 1, 1) (WBytes [170; 187]) [128]]) ++ [QSetIocs (0, 1, 1) [129]]).
    eapply ph_snoc; [eapply ph_snoc; [eapply ph_snoc; [apply ph_nil| |vm_compute; reflexivity]| |vm_compute; reflexivity]| |vm_compute; reflexivity]; vm_compute; auto.
  - reflexivity.
  - split; [unfold k_in; cbn; lia|]. split; [unfold desc_in; cbn; lia|]. split; [vm_compute; reflexivity|]. split; [reflexivity|]. split; [vm_compute; reflexivity|reflexivity].
Qed.
