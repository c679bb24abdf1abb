(** Answers to read requests (C111) and reading I&M data back (C108). *)
From Coq Require Import List ZArith Arith Lia Bool.
From Verif Require Import Base CpmModel CpmProps PpmModel PpmProps BlockModel BlockReadLemmas BlockWriteProps FspmModel FspmProps RecordModel.
Import ListNotations.
Local Open Scope Z_scope.

(** Writing with [k] bytes of room to spare. *)
Definition encs (k : Z) (f : writer) (bs : list Z) : Prop :=
  forall b len pos, 0 <= pos -> pos + Z.of_nat (length bs) + k <= len -> len <= Z.of_nat (length b) -> len < 65536 ->
  f (mkWr (Some b) len pos) = Ok (mkWr (Some (put_at b (Z.to_nat pos) bs)) len (pos + Z.of_nat (length bs))).

Lemma encs_enc : forall k f bs, 0 <= k -> enc f bs -> encs k f bs.
Proof. intros k f bs K E b len pos P L M N. apply E; lia. Qed.

Lemma encs_seq : forall k f g x y, 0 <= k -> encs k f x -> encs k g y -> encs k (f ;; g) (x ++ y).
Proof.
  intros k f g x y K F G b len pos P L M N. unfold wseq. rewrite app_length in L.
  rewrite F by lia. cbn [obind]. rewrite G; try lia.
  - rewrite app_length. f_equal. f_equal; [|lia].
    replace (Z.to_nat (pos + Z.of_nat (length x))) with (Z.to_nat pos + length x)%nat by lia.
    rewrite put_at_app by lia. reflexivity.
  - rewrite put_at_length by lia. lia.
Qed.

Lemma enc_spaces : forall n,
  enc ((fix spaces (n : nat) : writer := match n with O => wskip | S k => put_byte 32 ;; spaces k end) n) (repeat 32 n).
Proof.
  induction n as [|n IH]; [apply enc_skip|]. cbn [repeat]. change (32 :: repeat 32 n) with ([32] ++ repeat 32 n).
  apply enc_seq; [apply enc_byte; unfold byte; lia|exact IH].
Qed.

Lemma encs_str : forall s size, (length s < Z.to_nat size)%nat ->
  encs 1 (put_str s size) (s ++ repeat 32 (Z.to_nat (size - 1) - length s)).
Proof.
  intros s size S1 b len pos P L M N. unfold put_str. cbn [w_len w_pos w_buf].
  rewrite app_length, repeat_length in L.
  destruct (Z.ltb_spec len (pos + size)); [lia|].
  rewrite poke_ok by lia. cbn [obind]. rewrite u16_id by lia.
  change (firstn (Z.to_nat pos) b ++ s ++ skipn (Z.to_nat pos + length s) b) with (put_at b (Z.to_nat pos) s).
  rewrite enc_spaces; rewrite ?repeat_length, ?put_at_length; try lia.
  f_equal. f_equal; [|rewrite app_length, repeat_length; lia].
  replace (Z.to_nat (pos + Z.of_nat (length s))) with (Z.to_nat pos + length s)%nat by lia.
  rewrite put_at_app by (rewrite ?repeat_length; lia). reflexivity.
Qed.

Lemma encs_block : forall k be ty body bs, 0 <= k -> 0 <= ty < 65536 -> Z.of_nat (length bs) < 65534 -> encs k body bs ->
  encs k (put_block be ty body) (eblock be ty bs).
Proof.
  intros k be ty body bs K T Lb B b len pos P L M N. unfold put_block. cbn [w_pos].
  assert (Le : length (eblock be ty bs) = (6 + length bs)%nat) by (unfold eblock; rewrite !app_length, !e16_length; reflexivity).
  rewrite Le in L.
  assert (EH : enc (put_block_header be ty 0 1 0) (e16 be ty ++ e16 be (0 + 2) ++ [1; 0])) by (apply enc_header; unfold byte; lia).
  unfold wseq. rewrite EH by (rewrite ?app_length, ?e16_length; cbn [length]; lia). cbn [obind].
  assert (LH : length (e16 be ty ++ e16 be (0 + 2) ++ [1; 0]) = 6%nat) by (rewrite !app_length, !e16_length; reflexivity).
  rewrite LH.
  rewrite B by (rewrite ?put_at_length; lia). cbn [obind].
  replace (Z.to_nat (pos + Z.of_nat 6)) with (Nat.add (Z.to_nat pos) (length (e16 be ty ++ e16 be (0 + 2) ++ [1; 0]))) by lia.
  rewrite put_at_app by lia.
  unfold put_block_len. cbn [w_pos w_buf w_len].
  replace (u16 (pos + Z.of_nat 6 + Z.of_nat (length bs) - (pos + 4))) with (2 + Z.of_nat (length bs)) by (rewrite u16_id; lia).
  rewrite (u16_id (pos + 2)) by lia.
  assert (E2 : enc (put_u16 be (2 + Z.of_nat (length bs))) (e16 be (2 + Z.of_nat (length bs)))) by (apply enc_u16; lia).
  rewrite E2 by (rewrite ?put_at_length, ?app_length, ?e16_length; rewrite ?app_length, ?e16_length; cbn [length]; lia).
  cbn [obind w_buf w_len].
  rewrite <- !app_assoc.
  replace (Z.to_nat (pos + 2)) with (Z.to_nat pos + length (e16 be ty))%nat by (rewrite e16_length; lia).
  rewrite put_at_over; [|rewrite !e16_length; reflexivity|rewrite !app_length, !e16_length; cbn [length]; lia].
  rewrite Le. unfold eblock.
  replace (pos + Z.of_nat 6 + Z.of_nat (length bs)) with (pos + Z.of_nat (6 + length bs)) by lia. reflexivity.
Qed.

(** The block of an I&M record. *)
Lemma encs_im : forall m k, im_ok m -> 1 <= k <= 4 -> encs 1 (put_im m k) (eblock true (32 + k) (im_data m k)).
Proof.
  intros m k (F & L & Da & De & Si) K. unfold put_im, im_data.
  assert (E : k = 1 \/ k = 2 \/ k = 3 \/ k = 4) by lia.
  destruct E as [->|[->|[->| ->]]]; cbn [Z.eqb Pos.eqb Z.add Pos.add].
  - apply encs_block; [lia|lia|rewrite app_length, !text_length by assumption; lia|].
    apply encs_seq; [lia| |]; unfold text.
    + apply (encs_str (before_nul (i_fun m)) 33). assert (X := terminated_le _ _ F). lia.
    + apply (encs_str (before_nul (i_loc m)) 23). assert (X := terminated_le _ _ L). lia.
  - apply encs_block; [lia|lia|rewrite text_length by assumption; lia|]. unfold text.
    apply (encs_str (before_nul (i_date m)) 17). assert (X := terminated_le _ _ Da). lia.
  - apply encs_block; [lia|lia|rewrite text_length by assumption; lia|]. unfold text.
    apply (encs_str (before_nul (i_desc m)) 55). assert (X := terminated_le _ _ De). lia.
  - apply encs_block; [lia|lia|lia|]. apply encs_enc; [lia|apply enc_mem].
Qed.
Lemma im_data_length : forall m k, im_ok m -> 1 <= k <= 4 -> length (im_data m k) = rec_size k.
Proof.
  intros m k (F & L & Da & De & Si) K. unfold im_data, rec_size. assert (E : k = 1 \/ k = 2 \/ k = 3 \/ k = 4) by lia.
  destruct E as [->|[->|[->| ->]]]; cbn [Z.eqb Pos.eqb]; rewrite ?app_length, ?text_length by assumption; try reflexivity. exact Si.
Qed.

(** * The header of the answer *)

(** Specification of the layout: the request is repeated, [n] is the length of the data
    that follow. *)
Definition eread (q : rwreq) (add1 add2 n : Z) : list Z :=
  e16 true 32777 ++ e16 true 60 ++ [1; 0] ++
  e16 true (q_seq q) ++ euuid true (q_uuid q) ++ e32 true (q_api q) ++ e16 true (q_slot q) ++ e16 true (q_subslot q) ++ [0; 0] ++
  e16 true (q_index q) ++ e32 true n ++ e16 true add1 ++ e16 true add2 ++ repeat 0 20.
Definition add_ok (x : Z) : Prop := 0 <= x < 65536.

Definition head1 (q : rwreq) : writer :=
  put_block_header true 32777 0 1 0 ;; put_u16 true (q_seq q) ;; put_uuid true (q_uuid q) ;; put_u32 true (q_api q) ;;
  put_u16 true (q_slot q) ;; put_u16 true (q_subslot q) ;; put_byte 0 ;; put_byte 0 ;; put_u16 true (q_index q).
Definition head2 (a1 a2 : Z) : writer := put_u32 true 0 ;; put_u16 true a1 ;; put_u16 true a2 ;; put_padding 20.
Definition body1 (q : rwreq) : writer :=
  put_u16 true (q_seq q) ;; put_uuid true (q_uuid q) ;; put_u32 true (q_api q) ;;
  put_u16 true (q_slot q) ;; put_u16 true (q_subslot q) ;; put_byte 0 ;; put_byte 0 ;; put_u16 true (q_index q).

Lemma wseq_assoc : forall f g h w, ((f ;; g) ;; h) w = (f ;; (g ;; h)) w.
Proof. intros f g h w. unfold wseq. destruct (f w); reflexivity. Qed.

Lemma read_result_block : forall q a1 a2 w w1 w2, head1 q w = Ok w1 -> (put_block true 32777 (body1 q ;; head2 a1 a2)) w = Ok w2 ->
  put_read_result q a1 a2 w = Ok (w2, w_pos w1).
Proof.
  intros q a1 a2 w w1 w2 H1 H2. unfold put_read_result. unfold head1 in H1. rewrite H1. cbn [obind].
  unfold put_block in H2.
  assert (X : (put_block_header true 32777 0 1 0 ;; (body1 q ;; head2 a1 a2) ;; put_block_len true (w_pos w)) w =
              (head1 q ;; head2 a1 a2 ;; put_block_len true (w_pos w)) w).
  { unfold head1, body1, wseq. destruct (put_block_header true 32777 0 1 0 w) as [x| |]; [|reflexivity|reflexivity]. cbn [obind].
    destruct (put_u16 true (q_seq q) x) as [y| |]; [|reflexivity|reflexivity]. cbn [obind].
    destruct (put_uuid true (q_uuid q) y) as [y1| |]; [|reflexivity|reflexivity]. cbn [obind].
    destruct (put_u32 true (q_api q) y1) as [y2| |]; [|reflexivity|reflexivity]. cbn [obind].
    destruct (put_u16 true (q_slot q) y2) as [y3| |]; [|reflexivity|reflexivity]. cbn [obind].
    destruct (put_u16 true (q_subslot q) y3) as [y4| |]; [|reflexivity|reflexivity]. cbn [obind].
    destruct (put_byte 0 y4) as [y5| |]; [|reflexivity|reflexivity]. cbn [obind].
    destruct (put_byte 0 y5) as [y6| |]; [|reflexivity|reflexivity]. cbn [obind].
    destruct (put_u16 true (q_index q) y6) as [y7| |]; reflexivity. }
  rewrite X in H2. unfold wseq at 1 in H2. unfold head1 in H2. rewrite H1 in H2. cbn [obind] in H2.
  unfold head2 in H2.
  assert (Y : forall w, ((put_u32 true 0 ;; put_u16 true a1 ;; put_u16 true a2 ;; put_padding 20) ;; put_block_len true (w_pos w)) w1 =
     (put_u32 true 0 ;; put_u16 true a1 ;; put_u16 true a2 ;; put_padding 20 ;; put_block_len true (w_pos w)) w1).
  { intros v. unfold wseq. destruct (put_u32 true 0 w1) as [x| |]; [|reflexivity|reflexivity]. cbn [obind].
    destruct (put_u16 true a1 x) as [x1| |]; [|reflexivity|reflexivity]. cbn [obind].
    destruct (put_u16 true a2 x1) as [x2| |]; reflexivity. }
  rewrite Y in H2. rewrite H2. reflexivity.
Qed.

Lemma enc_head1 : forall q, rwreq_ok q -> exists h, length h = 36%nat /\ enc (head1 q) h.
Proof.
  intros q (A & U & B & C & D & E & F). eexists. split.
  2:{ unfold head1. apply enc_seq; [apply enc_header; unfold byte; lia|]. apply enc_seq; [apply enc_u16; lia|]. apply enc_seq; [apply enc_uuid; exact U|].
      apply enc_seq; [apply enc_u32; lia|]. apply enc_seq; [apply enc_u16; lia|]. apply enc_seq; [apply enc_u16; lia|].
      apply enc_seq; [apply enc_byte; unfold byte; lia|]. apply enc_seq; [apply enc_byte; unfold byte; lia|]. apply enc_u16. lia. }
  rewrite !app_length, euuid_length, !e32_length, !e16_length by exact U. reflexivity.
Qed.

Lemma eread_length : forall q a1 a2 n, uuid_ok (q_uuid q) -> length (eread q a1 a2 n) = 64%nat.
Proof. intros q a1 a2 n U. unfold eread. rewrite !app_length, euuid_length, !e32_length, !e16_length, repeat_length by exact U. reflexivity. Qed.

Lemma enc_read_block : forall q a1 a2, rwreq_ok q -> add_ok a1 -> add_ok a2 ->
  enc (put_block true 32777 (body1 q ;; head2 a1 a2)) (eread q a1 a2 0).
Proof.
  intros q a1 a2 (A & U & B & C & D & E & F) A1 A2. unfold add_ok in *.
  assert (X : eread q a1 a2 0 = eblock true 32777 ((e16 true (q_seq q) ++ euuid true (q_uuid q) ++ e32 true (q_api q) ++ e16 true (q_slot q) ++ e16 true (q_subslot q) ++ [0] ++ [0] ++ e16 true (q_index q)) ++
     (e32 true 0 ++ e16 true a1 ++ e16 true a2 ++ repeat 0 20))).
  { unfold eblock, eread. rewrite <- !app_assoc.
    rewrite !app_length, euuid_length, !e32_length, !e16_length, repeat_length by exact U. reflexivity. }
  rewrite X. apply enc_block; [lia| |].
  - rewrite !app_length, euuid_length, !e32_length, !e16_length, repeat_length by exact U. cbn [length]. lia.
  - apply enc_seq; unfold body1, head2.
    + apply enc_seq; [apply enc_u16; lia|]. apply enc_seq; [apply enc_uuid; exact U|].
      apply enc_seq; [apply enc_u32; lia|]. apply enc_seq; [apply enc_u16; lia|]. apply enc_seq; [apply enc_u16; lia|].
      apply enc_seq; [apply enc_byte; unfold byte; lia|]. apply enc_seq; [apply enc_byte; unfold byte; lia|]. apply enc_u16. lia.
    + apply enc_seq; [apply enc_u32; lia|]. apply enc_seq; [apply enc_u16; lia|]. apply enc_seq; [apply enc_u16; lia|apply enc_padding].
Qed.

(** Header written where there is room; the place of the length. *)
Lemma read_result_room : forall q a1 a2 b len pos, rwreq_ok q -> add_ok a1 -> add_ok a2 -> 0 <= pos -> pos + 64 <= len ->
  len <= Z.of_nat (length b) -> len < 65536 ->
  put_read_result q a1 a2 (mkWr (Some b) len pos) =
  Ok (mkWr (Some (put_at b (Z.to_nat pos) (eread q a1 a2 0))) len (pos + 64), pos + 36).
Proof.
  intros q a1 a2 b len pos Q A1 A2 P L M N. destruct (enc_head1 q Q) as (h & Lh & Eh).
  assert (U : uuid_ok (q_uuid q)) by apply Q. assert (Lr := eread_length q a1 a2 0 U).
  assert (H2 := enc_read_block q a1 a2 Q A1 A2 b len pos P ltac:(lia) M N). rewrite Lr in H2.
  assert (H1 := Eh b len pos P ltac:(lia) M N). rewrite Lh in H1.
  rewrite (read_result_block _ _ _ _ _ _ H1 H2). reflexivity.
Qed.

(** The length is inserted. *)
Lemma patch_length : forall q a1 a2 n d b pos len, rwreq_ok q -> 0 <= n < 4294967296 -> 0 <= pos ->
  pos + 64 + Z.of_nat (length d) <= len -> len <= Z.of_nat (length b) -> len < 65536 ->
  put_u32 true n (mkWr (Some (put_at b (Z.to_nat pos) (eread q a1 a2 0 ++ d))) len (pos + 36)) =
  Ok (mkWr (Some (put_at b (Z.to_nat pos) (eread q a1 a2 n ++ d))) len (pos + 40)).
Proof.
  intros q a1 a2 n d b pos len Q N P L M S1. assert (U : uuid_ok (q_uuid q)) by apply Q.
  assert (Lr := eread_length q a1 a2 0 U).
  rewrite (enc_u32 true n N); rewrite ?e32_length, ?put_at_length, ?app_length; try lia.
  replace (pos + 36 + Z.of_nat 4) with (pos + 40) by lia. f_equal. f_equal. f_equal.
  set (x := e16 true 32777 ++ e16 true 60 ++ [1; 0] ++ e16 true (q_seq q) ++ euuid true (q_uuid q) ++ e32 true (q_api q) ++ e16 true (q_slot q) ++ e16 true (q_subslot q) ++ [0; 0] ++ e16 true (q_index q)).
  assert (Lx : length x = 36%nat) by (unfold x; rewrite !app_length, euuid_length, !e32_length, !e16_length by exact U; reflexivity).
  assert (Ex : forall v, eread q a1 a2 v ++ d = x ++ e32 true v ++ (e16 true a1 ++ e16 true a2 ++ repeat 0 20 ++ d)).
  { intros v. unfold eread, x. rewrite <- !app_assoc. reflexivity. }
  rewrite (Ex 0), (Ex n). replace (Z.to_nat (pos + 36)) with (Z.to_nat pos + length x)%nat by lia.
  apply put_at_over; [rewrite !e32_length; reflexivity|]. rewrite <- (Ex 0), app_length. lia.
  rewrite app_length. lia.
Qed.

(** * C111: data of the application *)

Definition stat_ok (s : rstat) : Prop := add_ok (t_add1 s) /\ add_ok (t_add2 s).

Lemma read_user : forall dv cb ar q b len pos, d_cb dv = Some cb -> rwreq_ok q -> q_index q <= 32767 ->
  0 <= pos -> pos + 64 <= len -> len <= Z.of_nat (length b) -> len < 65536 ->
  stat_ok (v_stat (cb q ar (len - pos))) ->
  let a := cb q ar (len - pos) in
  let d := if v_ok a then v_data a else [] in
  read_ind dv (Some ar) q stat0 (mkWr (Some b) len pos) =
  if pos + 64 + Z.of_nat (length d) <=? len then
    Ok (mkWr (Some (put_at b (Z.to_nat pos) (eread q (t_add1 (v_stat a)) (t_add2 (v_stat a)) (Z.of_nat (length d)) ++ d))) len (pos + 64 + Z.of_nat (length d)), v_stat a)
  else
    Ok (mkWr (Some (put_at b (Z.to_nat pos) (eread q (t_add1 (v_stat a)) (t_add2 (v_stat a)) 0))) len (pos + 64),
        mkStat (mkPnio 222 128 176 10) (t_add1 (v_stat a)) (t_add2 (v_stat a))).
Proof.
  intros dv cb ar q b len pos C Q I P L M N S1 a d. unfold read_ind. cbv zeta.
  destruct (Z.leb_spec (q_index q) 32767); [|lia]. cbn [w_len w_pos].
  assert (U : uuid_ok (q_uuid q)) by apply Q.
  rewrite (u16_id (len - pos)) by lia. unfold fspm_read_user. rewrite C. cbn [obind]. fold a. fold d.
  destruct S1 as (A1 & A2). fold a in A1, A2.
  rewrite read_result_room by assumption. cbn [obind w_pos w_len].
  set (a1 := t_add1 (v_stat a)) in *. set (a2 := t_add2 (v_stat a)) in *.
  assert (Lr := eread_length q a1 a2 0 U).
  destruct (Z.leb_spec (pos + 64 + Z.of_nat (length d)) len) as [F|F].
  - rewrite enc_mem by (rewrite ?put_at_length; lia). cbn [obind w_buf w_len w_pos].
    replace (Z.to_nat (pos + 64)) with (Z.to_nat pos + length (eread q a1 a2 0))%nat by lia.
    rewrite put_at_app by lia. rewrite !u16_id by lia.
    replace (pos + 64 + Z.of_nat (length d) - (pos + 64)) with (Z.of_nat (length d)) by lia.
    rewrite patch_length by (try assumption; lia). reflexivity.
  - cbn [obind w_buf w_len w_pos]. rewrite !u16_id by lia. rewrite Z.sub_diag.
    assert (X := patch_length q a1 a2 0 [] b pos len Q ltac:(lia) P ltac:(cbn [length]; lia) M N). rewrite app_nil_r in X. rewrite X. reflexivity.
Qed.

(** Full claim: data of the application are transmitted unchanged whenever they are not
    longer than the length offered.  Missing: data that need the last 64 bytes of it
    (see C111_offered_refuted). *)
Theorem C111_user_partial : forall dv cb ar q b len pos a, d_cb dv = Some cb -> rwreq_ok q -> q_index q <= 32767 ->
  0 <= pos -> len <= Z.of_nat (length b) -> len < 65536 ->
  a = cb q ar (len - pos) -> v_ok a = true -> stat_ok (v_stat a) -> Z.of_nat (length (v_data a)) <= len - pos - 64 ->
  read_ind dv (Some ar) q stat0 (mkWr (Some b) len pos) =
  Ok (mkWr (Some (put_at b (Z.to_nat pos) (eread q (t_add1 (v_stat a)) (t_add2 (v_stat a)) (Z.of_nat (length (v_data a))) ++ v_data a))) len
        (pos + 64 + Z.of_nat (length (v_data a))), v_stat a).
Proof.
  intros dv cb ar q b len pos a C Q I P M N Ea V S1 L. subst a. rewrite (read_user dv cb ar q b len pos) by (try assumption; lia). cbv zeta.
  rewrite V. destruct (Z.leb_spec (pos + 64 + Z.of_nat (length (v_data (cb q ar (len - pos))))) len); [reflexivity|lia].
Qed.
Print Assumptions C111_user_partial.

(** Data that are not longer than the length offered but need more than it less 64 are
    replaced by the error "invalid index". *)
Theorem C111_offered_refuted : forall dv cb ar q b len pos a, d_cb dv = Some cb -> rwreq_ok q -> q_index q <= 32767 ->
  0 <= pos -> pos + 64 <= len -> len <= Z.of_nat (length b) -> len < 65536 ->
  a = cb q ar (len - pos) -> v_ok a = true -> stat_ok (v_stat a) -> len - pos - 64 < Z.of_nat (length (v_data a)) <= len - pos ->
  exists w st, read_ind dv (Some ar) q stat0 (mkWr (Some b) len pos) = Ok (w, st) /\
  t_pnio st = mkPnio 222 128 176 10 /\ w_pos w = pos + 64.
Proof.
  intros dv cb ar q b len pos a C Q I P R M N Ea V S1 L. subst a. rewrite (read_user dv cb ar q b len pos) by (try assumption; lia). cbv zeta.
  rewrite V. destruct (Z.leb_spec (pos + 64 + Z.of_nat (length (v_data (cb q ar (len - pos))))) len); [lia|].
  eexists _, _. split; [reflexivity|]. split; reflexivity.
Qed.
Print Assumptions C111_offered_refuted.

(** An application that fails is answered with its own status and no data. *)
Theorem C111_failure : forall dv cb ar q b len pos a, d_cb dv = Some cb -> rwreq_ok q -> q_index q <= 32767 ->
  0 <= pos -> pos + 64 <= len -> len <= Z.of_nat (length b) -> len < 65536 ->
  a = cb q ar (len - pos) -> v_ok a = false -> stat_ok (v_stat a) ->
  read_ind dv (Some ar) q stat0 (mkWr (Some b) len pos) =
  Ok (mkWr (Some (put_at b (Z.to_nat pos) (eread q (t_add1 (v_stat a)) (t_add2 (v_stat a)) 0))) len (pos + 64), v_stat a).
Proof.
  intros dv cb ar q b len pos a C Q I P R M N Ea V S1. subst a. rewrite (read_user dv cb ar q b len pos) by (try assumption; lia). cbv zeta.
  rewrite V. cbn [length]. destruct (Z.leb_spec (pos + 64 + Z.of_nat 0) len); [|lia]. rewrite app_nil_r.
  do 3 f_equal. lia.
Qed.
Print Assumptions C111_failure.

(** A read of a user record for which the device knows no connection makes the stack
    read through a NULL pointer: with an explicit read for an unknown connection, and
    with an implicit read with an unknown target. *)
Theorem C111_no_connection_refuted : forall find api (implicit : bool) dv q target w cb,
  d_cb dv = Some cb -> q_index q <= 32767 -> q_api q = 0 ->
  find (q_uuid q) = None -> (if implicit then find target = None else uuid_zero (q_uuid q) = false) ->
  read_rpc find api implicit dv q target w = Ub.
Proof.
  intros find api implicit dv q target w cb C I A F T. unfold read_rpc, read_ar. rewrite F, A. cbn [Z.eqb negb andb].
  assert (X : (if implicit then find target else None) = None) by (destruct implicit; [exact T|reflexivity]).
  replace (uuid_zero (q_uuid q) && negb implicit) with false by (destruct implicit; [rewrite andb_false_r; reflexivity|rewrite T; reflexivity]).
  rewrite X. unfold read_ind. cbv zeta. destruct (Z.leb_spec (q_index q) 32767); [|lia].
  unfold fspm_read_user. rewrite C. reflexivity.
Qed.
Print Assumptions C111_no_connection_refuted.

(** Which requests are rejected without an answer block, and the connection a read is
    executed for: an implicit read names it with the target, an explicit one with the AR UUID. *)
Theorem C111_request : forall find api (implicit : bool) dv q target w,
  let rejected e := read_rpc find api implicit dv q target w = Ok (None, mkStat e 0 0) in
  let no_api := q_api q <> 0 /\ api (q_api q) = false in
  let executed ar := read_rpc find api implicit dv q target w = (do x <- read_ind dv ar q stat0 w; let '(w', st) := x in Ok (Some w', st)) in
  (implicit = false -> uuid_zero (q_uuid q) = true -> rejected (mkPnio 222 129 8 5)) /\
  (implicit = true -> find (q_uuid q) <> None -> rejected (mkPnio 222 129 64 5)) /\
  (implicit = true -> find (q_uuid q) = None -> no_api -> rejected (mkPnio 222 128 180 6)) /\
  (implicit = true -> find (q_uuid q) = None -> ~ no_api -> executed (find target)) /\
  (implicit = false -> uuid_zero (q_uuid q) = false -> no_api -> rejected (mkPnio 222 128 180 6)) /\
  (implicit = false -> uuid_zero (q_uuid q) = false -> ~ no_api -> executed (find (q_uuid q))).
Proof.
  intros find api implicit dv q target w. cbv zeta. unfold read_rpc, read_ar.
  assert (NA : q_api q <> 0 /\ api (q_api q) = false -> negb (q_api q =? 0) && negb (api (q_api q)) = true).
  { intros [N A]. rewrite A. destruct (Z.eqb_spec (q_api q) 0); [contradiction|reflexivity]. }
  assert (YA : ~ (q_api q <> 0 /\ api (q_api q) = false) -> negb (q_api q =? 0) && negb (api (q_api q)) = false).
  { intros N. destruct (Z.eqb_spec (q_api q) 0); [reflexivity|]. destruct (api (q_api q)); [reflexivity|]. exfalso. apply N. auto. }
  split; [|split; [|split; [|split; [|split]]]].
  - intros -> ->. reflexivity.
  - intros -> N. rewrite andb_false_r. destruct (find (q_uuid q)); [reflexivity|congruence].
  - intros -> -> N. rewrite andb_false_r, (NA N). reflexivity.
  - intros -> -> N. rewrite andb_false_r, (YA N). reflexivity.
  - intros -> -> N. cbn [andb]. rewrite (NA N). destruct (find (q_uuid q)); reflexivity.
  - intros -> -> N. cbn [andb]. rewrite (YA N). destruct (find (q_uuid q)); reflexivity.
Qed.
Print Assumptions C111_request.
Example C111_request_case : uuid_zero uuid0 = true /\ uuid_zero (mkUuid 1 2 3 (repeat 4 8)) = false.
Proof. split; reflexivity. Qed.

(** * C111: every answer *)

(** All other writers stay inside the buffer (as proved for those of BlockModel.v by
    C28_writers_stay_inside). *)
Definition others_inside (dv : rdevice) : Prop := forall q w, stays_inside (snd (d_other dv q w)).

Lemma inside_entries : forall be l, stays_inside (put_entries be l).
Proof.
  induction l as [|e l IH]; cbn [put_entries]; [apply inside_skip|]. apply inside_seq; [|exact IH]. unfold put_entry, put_time, put_pnet_status.
  refine (inside_seq _ _ (inside_seq _ _ (inside_u16 _ _) (inside_seq _ _ (inside_u16 _ _) (inside_u32 _ _))) _).
  refine (inside_seq _ _ (inside_uuid _ _) (inside_seq _ _ (inside_u32 _ _) (inside_u32 _ _))).
Qed.
Lemma inside_im : forall m k, im_ok m -> stays_inside (put_im m k).
Proof.
  intros m k (F & L & Da & De & Si). unfold put_im.
  assert (X1 := terminated_le _ _ F). assert (X2 := terminated_le _ _ L). assert (X3 := terminated_le _ _ Da). assert (X4 := terminated_le _ _ De).
  destruct (k =? 1); [|destruct (k =? 2); [|destruct (k =? 3)]]; apply inside_block.
  - apply inside_seq; apply inside_str; lia.
  - apply inside_str; lia.
  - apply inside_str; lia.
  - apply inside_mem.
Qed.
Lemma inside_log_book : forall n h b, (1 <= n)%nat -> book_run (book0 n) h = Ok b ->
  exists f, put_log_book true b = Some f /\ stays_inside f.
Proof.
  intros n h b N R. destruct (C109_latest_partial n h N) as (b' & R' & Li & _). rewrite R in R'. injection R' as <-.
  unfold listed in Li. unfold put_log_book. rewrite Li. eexists. split; [reflexivity|]. apply inside_block.
  unfold put_time.
  refine (inside_seq _ _ (inside_seq _ _ (inside_u16 _ _) (inside_seq _ _ (inside_u16 _ _) (inside_u32 _ _))) _).
  refine (inside_seq _ _ (inside_u16 _ _) (inside_entries _ _)).
Qed.

(** Full claim: every answer stays inside the buffer, and the length announced (bytes 36
    to 39 of the answer) is the length of the data that follow its header.  Missing:
    reads without a connection (see C111_no_connection_refuted). *)
Theorem C111_consistent_partial : forall dv ar q b len pos n h, rwreq_ok q -> others_inside dv -> im_ok (d_im dv) ->
  (1 <= n)%nat -> book_run (book0 n) h = Ok (d_book dv) ->
  (forall cb k m, d_cb dv = Some cb -> stat_ok (v_stat (cb q k m))) ->
  ar <> None -> 0 <= pos -> pos + 64 <= len -> len <= Z.of_nat (length b) -> len < 65534 ->
  exists b' pos' st, read_ind dv ar q stat0 (mkWr (Some b) len pos) = Ok (mkWr (Some b') len pos', st) /\
  pos + 64 <= pos' <= len /\ length b' = length b /\
  (forall i, (i < Z.to_nat pos)%nat \/ (Z.to_nat len <= i)%nat -> nth i b' 0 = nth i b 0) /\
  firstn 4 (skipn (Z.to_nat pos + 36) b') = e32 true (pos' - (pos + 64)).
Proof.
  intros dv ar q b len pos n h Q Ot Im Nn Bk St Ar P L M N. unfold read_ind. cbv zeta. cbn [w_len w_pos].
  set (user := q_index q <=? 32767).
  assert (An : exists an, (if user then fspm_read_user dv ar q (u16 (len - pos)) stat0 else Ok (mkRans true [] stat0)) = Ok an /\ stat_ok (v_stat an)).
  { destruct user.
    - unfold fspm_read_user. destruct (d_cb dv) as [cb|] eqn:C.
      + destruct ar as [k|]; [|congruence]. eexists. split; [reflexivity|]. apply St. reflexivity.
      + eexists. split; [reflexivity|]. split; unfold add_ok; cbn; lia.
    - eexists. split; [reflexivity|]. split; unfold add_ok; cbn; lia. }
  destruct An as (an & -> & A1 & A2). cbn [obind]. set (data := if v_ok an then v_data an else []).
  rewrite read_result_room by (try assumption; lia). cbn [obind w_pos w_len w_buf].
  set (a1 := t_add1 (v_stat an)) in *. set (a2 := t_add2 (v_stat an)) in *.
  assert (U : uuid_ok (q_uuid q)) by apply Q. assert (Lr := eread_length q a1 a2 0 U).
  set (b1 := put_at b (Z.to_nat pos) (eread q a1 a2 0)) in *.
  assert (Lb1 : length b1 = length b) by (unfold b1; rewrite put_at_length by lia; reflexivity).
  set (w1 := mkWr (Some b1) len (pos + 64)) in *.
  match goal with |- context [obind ?X _] => assert (Y : exists ok b2 p2, X = Ok (ok, mkWr (Some b2) len p2) /\ pos + 64 <= p2 <= len /\ length b2 = length b /\
     forall i, (i < Z.to_nat (pos + 64))%nat \/ (Z.to_nat len <= i)%nat -> nth i b2 0 = nth i b1 0) end.
  { assert (G : forall f, stays_inside f -> exists b2 p2, f w1 = Ok (mkWr (Some b2) len p2) /\ pos + 64 <= p2 <= len /\ length b2 = length b /\
       forall i, (i < Z.to_nat (pos + 64))%nat \/ (Z.to_nat len <= i)%nat -> nth i b2 0 = nth i b1 0).
    { intros f F. destruct (F b1 len (pos + 64) ltac:(lia) ltac:(lia) N) as (b2 & p2 & E & R & L2 & K). exists b2, p2. unfold w1. rewrite E. repeat split; auto; lia. }
    destruct user.
    - destruct (pos + 64 + Z.of_nat (length data) <=? len).
      + destruct (G _ (inside_mem data)) as (b2 & p2 & -> & X). cbn [obind]. exists true, b2, p2. split; [reflexivity|exact X].
      + exists false, b1, (pos + 64). split; [reflexivity|]. repeat split; auto; lia.
    - destruct ((ix_im0 <? q_index q) && (q_index q <=? ix_im0 + 4)).
      + destruct (negb (im_length (d_sup dv) (q_index q - ix_im0) =? 0) && (pos + 64 + im_length (d_sup dv) (q_index q - ix_im0) <? len)).
        * destruct (G _ (inside_im (d_im dv) (q_index q - ix_im0) Im)) as (b2 & p2 & -> & X). cbn [obind]. exists true, b2, p2. split; [reflexivity|exact X].
        * exists false, b1, (pos + 64). split; [reflexivity|]. repeat split; auto; lia.
      + destruct (q_index q =? 63536).
        * destruct (inside_log_book n h _ Nn Bk) as (f & -> & F). destruct (G _ F) as (b2 & p2 & -> & X). cbn [obind]. exists true, b2, p2. split; [reflexivity|exact X].
        * assert (O := Ot q w1). destruct (d_other dv q w1) as [ok f]. cbn [snd] in O. destruct (G _ O) as (b2 & p2 & -> & X). cbn [obind]. exists ok, b2, p2. split; [reflexivity|exact X]. }
  destruct Y as (ok & b2 & p2 & -> & R & L2 & K). cbn [obind w_buf w_len w_pos].
  rewrite !u16_id by lia. rewrite (enc_u32 true (p2 - (pos + 64)) ltac:(lia)); rewrite ?e32_length; try lia. cbn [obind w_buf w_len w_pos].
  eexists _, _, _. split; [reflexivity|]. split; [lia|].
  assert (Lp : length (put_at b2 (Z.to_nat (pos + 36)) (e32 true (p2 - (pos + 64)))) = length b) by (rewrite put_at_length; rewrite ?e32_length; lia).
  split; [exact Lp|]. split.
  - intros i Hi. assert (PK : forall c x y, (Z.to_nat x + length y <= length c)%nat -> 0 <= x -> (i < Z.to_nat x)%nat \/ (Z.to_nat x + length y <= i)%nat -> nth i (put_at c (Z.to_nat x) y) 0 = nth i c 0).
    { intros c x y X1 X2 X3. unfold put_at. destruct X3 as [X3|X3].
      - rewrite app_nth1 by (rewrite firstn_length; lia). rewrite <- (firstn_skipn (Z.to_nat x) c) at 2. rewrite app_nth1 by (rewrite firstn_length; lia). reflexivity.
      - rewrite app_nth2 by (rewrite firstn_length; lia). rewrite firstn_length, app_nth2 by lia.
        rewrite <- (firstn_skipn (Z.to_nat x + length y) c) at 3. rewrite (app_nth2 (firstn _ c)) by (rewrite firstn_length; lia). rewrite firstn_length. f_equal. lia. }
    rewrite PK by (rewrite ?e32_length; lia). rewrite K by lia. unfold b1. apply PK; lia.
  - replace (Z.to_nat (pos + 36)) with (Z.to_nat pos + 36)%nat by lia. unfold put_at.
    rewrite skipn_app, (skipn_all2 (firstn _ b2)) by (rewrite firstn_length; lia). rewrite firstn_length. cbn [app].
    replace (Z.to_nat pos + 36 - Nat.min (Z.to_nat pos + 36) (length b2))%nat with 0%nat by lia. rewrite skipn_O.
    rewrite firstn_app, e32_length. rewrite firstn_all2 by (rewrite e32_length; lia). cbn [Nat.sub firstn]. apply app_nil_r.
Qed.
Print Assumptions C111_consistent_partial.

(** * C108: I&M records *)

(** The answer holds the block of the record, if there is room for it (one byte more than
    it takes). *)
Theorem C108_read : forall dv ar q k b len pos, im_ok (d_im dv) -> rwreq_ok q -> 1 <= k <= 4 -> q_index q = 45040 + k ->
  0 <= d_sup dv -> Z.testbit (d_sup dv) k = true ->
  0 <= pos -> pos + 64 + 6 + Z.of_nat (rec_size k) + 1 <= len -> len <= Z.of_nat (length b) -> len < 65536 ->
  read_ind dv ar q stat0 (mkWr (Some b) len pos) =
  Ok (mkWr (Some (put_at b (Z.to_nat pos) (eread q 0 0 (6 + Z.of_nat (rec_size k)) ++ eblock true (32 + k) (im_data (d_im dv) k)))) len
        (pos + 70 + Z.of_nat (rec_size k)), stat0).
Proof.
  intros dv ar q k b len pos Im Q K I S0 S1 P L M N. unfold read_ind. cbv zeta.
  destruct (Z.leb_spec (q_index q) 32767); [lia|]. cbn [obind v_stat v_ok v_data t_add1 t_add2 stat0].
  assert (U : uuid_ok (q_uuid q)) by apply Q.
  rewrite read_result_room by (try assumption; try lia; unfold add_ok; lia). cbn [obind w_pos w_len].
  unfold ix_im0. rewrite I. replace (45040 + k - 45040) with k by lia.
  destruct (Z.ltb_spec 45040 (45040 + k)); [|lia]. destruct (Z.leb_spec (45040 + k) (45040 + 4)); [|lia]. cbn [andb].
  assert (Ni : 0 < im_length (d_sup dv) k <= Z.of_nat (rec_size k) + 2).
  { unfold im_length. rewrite supports_spec by lia. rewrite S1. cbn [negb]. unfold rec_size.
    assert (E : k = 1 \/ k = 2 \/ k = 3 \/ k = 4) by lia. destruct E as [->|[->|[->| ->]]]; cbn [Z.eqb Pos.eqb]; lia. }
  destruct (Z.eqb_spec (im_length (d_sup dv) k) 0); [lia|]. cbn [negb andb].
  destruct (Z.ltb_spec (pos + 64 + im_length (d_sup dv) k) len); [|lia].
  assert (Lr := eread_length q 0 0 0 U).
  assert (Lb : length (eblock true (32 + k) (im_data (d_im dv) k)) = (6 + rec_size k)%nat).
  { unfold eblock. rewrite !app_length, !e16_length, im_data_length by assumption. reflexivity. }
  rewrite (encs_im _ _ Im K) by (rewrite ?put_at_length, ?Lb; lia). cbn [obind w_pos w_len w_buf].
  rewrite !u16_id by lia. rewrite Lb.
  replace (Z.to_nat (pos + 64)) with (Z.to_nat pos + length (eread q 0 0 0))%nat by lia.
  rewrite put_at_app by lia.
  replace (pos + 64 + Z.of_nat (6 + rec_size k) - (pos + 64)) with (6 + Z.of_nat (rec_size k)) by lia.
  rewrite patch_length by (try assumption; rewrite ?Lb; lia). cbn [obind w_pos w_len w_buf].
  replace (pos + 64 + Z.of_nat (6 + rec_size k)) with (pos + 70 + Z.of_nat (rec_size k)) by lia. reflexivity.
Qed.
Print Assumptions C108_read.

(** From the writes of the controller, over restarts, to the bytes of the answer.  Full
    claim: for all histories; what is missing is said at [plain]. *)
Theorem C108_written_read_partial : forall sup def s h k c f, 0 <= sup -> holds (s_im s) c -> (exists m, s_file s = Some m /\ holds m f) ->
  Forall plain h -> 1 <= k <= 4 -> Z.testbit sup k = true ->
  exists s', frun sup def s h = Ok s' /\
  forall cb bk oth ar q b len pos, rwreq_ok q -> q_index q = 45040 + k ->
  0 <= pos -> pos + 64 + 6 + Z.of_nat (rec_size k) + 1 <= len -> len <= Z.of_nat (length b) -> len < 65536 ->
  read_ind (mkRdev cb sup (s_im s') bk oth) ar q stat0 (mkWr (Some b) len pos) =
  Ok (mkWr (Some (put_at b (Z.to_nat pos) (eread q 0 0 (6 + Z.of_nat (rec_size k)) ++
        eblock true (32 + k) (fst (spec_run sup (c, f) h) k)))) len (pos + 70 + Z.of_nat (rec_size k)), stat0).
Proof.
  intros sup def s h k c f S0 O Fi U K T. destruct (C108_all_histories_partial sup def h s c f S0 U O Fi) as (s' & E & (O' & D) & _).
  exists s'. split; [exact E|]. intros cb bk oth ar q b len pos Q I P L M N.
  rewrite (C108_read (mkRdev cb sup (s_im s') bk oth) ar q k b len pos) by assumption. cbn [d_im]. rewrite (D k K). reflexivity.
Qed.
Print Assumptions C108_written_read_partial.

Lemma q_ok : forall sub ix, 0 <= sub < 65536 -> 0 <= ix < 65536 -> rwreq_ok (mkRwreq 7 (mkUuid 1 2 3 (repeat 4 8)) 0 1 sub ix 100).
Proof.
  intros sub ix A B. unfold rwreq_ok, uuid_ok. cbn. repeat split; try lia.
Qed.

(** With too little room the record I&M1 is cut without an error: here there are 59 bytes
    after the header and the block, which takes 60, has only its first text. *)
Theorem C111_cut_refuted : exists dv q b len w, im_ok (d_im dv) /\ rwreq_ok q /\ q_index q = 45041 /\ len = 64 + 59 /\ len = Z.of_nat (length b) /\
  read_ind dv (Some 1) q stat0 (mkWr (Some b) len 0) = Ok (w, stat0) /\ w_pos w = 64 + 38.
Proof.
  exists (mkRdev None 30 clear_im (book0 2) (fun _ _ => (true, wskip))), (mkRwreq 7 (mkUuid 1 2 3 (repeat 4 8)) 0 1 1 45041 100), (repeat 7 123), 123.
  eexists. split; [unfold im_ok, terminated; cbn; tauto|].
  split; [apply q_ok; lia|]. split; [reflexivity|]. split; [reflexivity|]. split; [reflexivity|].
  split; [vm_compute; reflexivity|reflexivity].
Qed.
Print Assumptions C111_cut_refuted.

(** * Examples *)

Definition q_ex : rwreq := mkRwreq 7 (mkUuid 1 2 3 (repeat 4 8)) 0 1 1 123 100.
Lemma q_ex_ok : rwreq_ok q_ex.
Proof. apply q_ok; lia. Qed.
Definition dv_ex : rdevice :=
  mkRdev (Some (fun _ _ n => mkRans true [10; 11; 12] stat0)) 30 clear_im (book0 2) (fun _ _ => (true, put_u16 true 513)).

(** Three bytes of the application, an I&M record and another record. *)
Example C111_example :
  (exists w, read_ind dv_ex (Some 1) q_ex stat0 (mkWr (Some (repeat 9 200)) 200 100) = Ok (w, stat0) /\ w_pos w = 167) /\
  (exists b' st, read_ind dv_ex (Some 1) (mkRwreq 7 (mkUuid 1 2 3 (repeat 4 8)) 0 1 1 45042 100) stat0 (mkWr (Some (repeat 9 200)) 200 100) =
     Ok (mkWr (Some b') 200 186, st) /\ firstn 28 (skipn 164 b') = [0; 34; 0; 18; 1; 0] ++ repeat 32 16 ++ repeat 9 6) /\
  others_inside dv_ex /\ im_ok (d_im dv_ex) /\ book_run (book0 2) [] = Ok (d_book dv_ex).
Proof.
  split; [|split; [|split; [|split]]].
  - refine (ex_intro _ _ (conj (C111_user_partial dv_ex _ 1 q_ex (repeat 9 200) 200 100 (mkRans true [10; 11; 12] stat0) eq_refl q_ex_ok _ _ _ _ eq_refl eq_refl _ _) _));
      cbn; try lia; try reflexivity. split; unfold add_ok; cbn; lia.
  - eexists _, _. split; vm_compute; reflexivity.
  - intros q w. apply inside_u16.
  - unfold im_ok, terminated; cbn; tauto.
  - reflexivity.
Qed.
