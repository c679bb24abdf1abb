(** The bytes of the answer to a request. *)
From Coq Require Import List ZArith Arith Bool Lia.
From Verif Require Import Base CpmModel CpmProps PpmModel PpmProps BlockModel BlockReadLemmas BlockReadProps BlockWriteProps RpcModel RpcLemmas RpcInv RpcStep RpcProps RpcFrame RpcIdent.
Import ListNotations.
Local Open Scope Z_scope.

Definition body_of (o : hres) (h : rpch) (m : Z) : list Z :=
  if uuid_eqb (h_interface h) uuid_io_device || uuid_eqb (h_interface h) uuid_epmap then firstn (Z.to_nat (m - 80)) (o_body o) else [].
(** Header of a complete response and of the first fragment of a response. *)
Definition whole_header (h : rpch) (be : bool) (len : Z) := set_flags h pt_response 0 0 1 1 be len 0 0 0.
Definition first_header (h : rpch) (be : bool) := set_flags h pt_response 0 1 0 (if uuid_eqb (h_interface h) uuid_epmap then 0 else 1) be 1360 0 0 0.

Lemma whole_header_ok : forall h be len, hdr_in h -> 0 <= len < 65536 -> rpch_ok (whole_header h be len).
Proof. intros h be len H L. apply set_flags_ok; try assumption; try apply flag0; try apply flag1; unfold byte, pt_response; lia. Qed.
Lemma first_header_ok : forall h be, hdr_in h -> rpch_ok (first_header h be).
Proof.
  intros h be H. apply set_flags_ok; try assumption; try apply flag0; try apply flag1; try (unfold byte, pt_response; lia).
  destruct (uuid_eqb _ _); [apply flag0|apply flag1].
Qed.

Lemma body_length : forall o h m, 80 <= m -> Z.of_nat (length (body_of o h m)) <= m - 80.
Proof. intros o h m M. unfold body_of. destruct (_ || _); [rewrite firstn_length|cbn [length]]; lia. Qed.

Definition request_session (o : hres) (h : rpch) (m : Z) (be : bool) (s : sess) : sess :=
  let body := body_of o h m in
  with_out (if h_opnum h =? op_release then with_release s true else s)
    (hbytes (whole_header h be (h_bodylen h)) ++ body ++ skipn (80 + length body) (s_out s)) (80 + Z.of_nat (length body)) 0 0 0.

Lemma request_start_exact : forall c o k h m be st, cfg_ok c -> sess_ok c (sess_at c st k) -> hdr_in h -> 80 <= m <= c_buf c ->
  request_start c o k h m be st = Ok (set_sess st k (request_session o h m be (sess_at c st k)), 80, 74).
Proof.
  intros c o k h m be st C (I1 & I2 & _) H M. unfold request_start. cbn zeta. set (s := sess_at c st k) in *. unfold cfg_ok in C.
  destruct (hdr_in_bytes h H) as (HB & _).
  pose proof (whole_header_ok h be (h_bodylen h) H HB) as OK. unfold whole_header in OK.
  rewrite put_header_ok by (try assumption; lia). cbn [obind].
  fold (body_of o h m). pose proof (body_length o h m ltac:(lia)) as BL. set (body := body_of o h m) in *.
  assert (LT : length (hbytes (set_flags h pt_response 0 0 1 1 be (h_bodylen h) 0 0 0)) = 80%nat) by (apply hbytes_length; exact OK).
  rewrite poke_ok by (rewrite ?app_length, ?skipn_length, ?LT; lia). cbn [obind]. do 3 f_equal.
  unfold request_session. fold body. unfold whole_header.
  assert (PB : forall (X R : list Z), length X = 80%nat -> firstn (Z.to_nat 80) (X ++ R) ++ body ++ skipn (Z.to_nat 80 + length body) (X ++ R) = X ++ body ++ skipn (length body) R).
  { intros X R LX. change (Z.to_nat 80) with 80%nat. rewrite firstn_app, firstn_all2, LX, Nat.sub_diag by lia. cbn [firstn]. rewrite app_nil_r.
    rewrite skipn_app, skipn_all2, LX by lia. replace (80 + length body - 80)%nat with (length body) by lia. reflexivity. }
  rewrite PB by exact LT. rewrite skipn_skipn. replace (length body + 80)%nat with (80 + length body)%nat by lia.
  destruct (h_opnum h =? op_release); reflexivity.
Qed.

(** The session after the answer, and the call that transmits it. *)
Definition sent_whole (o : hres) (h : rpch) (m : Z) (be : bool) (s s5 : sess) : sess :=
  let body := body_of o h m in let n := 80 + Z.of_nat (length body) in
  with_out s5 (hbytes (whole_header h be (n - 80)) ++ body ++ skipn (80 + length body) (s_out s)) n 0 n 0.
Definition sent_first (o : hres) (h : rpch) (m : Z) (be : bool) (s s5 : sess) : sess :=
  let body := body_of o h m in let n := 80 + Z.of_nat (length body) in
  with_resend (with_out s5 (hbytes (first_header h be) ++ body ++ skipn (80 + length body) (s_out s)) n 0 1440 0) (s_resend s5) 3.

Lemma request_send_exact : forall c o k h m be st2 s, cfg_ok c -> sess_ok c s -> hdr_in h -> 80 <= m <= c_buf c -> (k < length (n_sess st2))%nat ->
  same_out (request_session o h m be s) (sess_at c st2 k) ->
  request_send c o k h m 80 74 be st2 =
  let s5 := sess_at c st2 k in
  let body := body_of o h m in
  if 80 + Z.of_nat (length body) <? 1440 then
    Ok (set_sess st2 k (sent_whole o h m be s s5), snd (send_buffer o k s5 (hbytes (whole_header h be (Z.of_nat (length body))) ++ body)))
  else send_with_timeout c o k (set_sess st2 k (sent_first o h m be s s5)).
Proof.
  intros c o k h m be st2 s C (I1 & I2 & _) H M L SO. unfold request_send. cbn zeta. set (s5 := sess_at c st2 k) in *. unfold cfg_ok in C.
  destruct SO as (Q1 & Q2 & Q3 & QO & QL & QP & QS & QF & _).
  unfold request_session in QO, QL, QP, QF. cbn [s_out s_out_len s_sent_pos s_send_len s_out_frag with_out] in QO, QL, QP, QF.
  rewrite QO, QL, QP, QF. pose proof (body_length o h m ltac:(lia)) as BL. set (body := body_of o h m) in *.
  destruct (hdr_in_bytes h H) as (HB & _).
  pose proof (whole_header_ok h be (h_bodylen h) H HB) as OK.
  set (rest := body ++ skipn (80 + length body) (s_out s)). assert (LR : Z.of_nat (length rest) = c_buf c - 80) by (unfold rest; rewrite app_length, skipn_length; lia).
  unfold max_payload. destruct (Z.ltb_spec (80 + Z.of_nat (length body)) 1440) as [G|G]; cbn [obind].
  - pose proof (put_len_ok (whole_header h be (h_bodylen h)) rest (Z.of_nat (length body)) (80 + Z.of_nat (length body)) OK ltac:(lia) ltac:(lia) ltac:(lia)) as PL.
    change (h_be (whole_header h be (h_bodylen h))) with be in PL. change (set_bodylen (whole_header h be (h_bodylen h)) (Z.of_nat (length body))) with (whole_header h be (Z.of_nat (length body))) in PL.
    replace (u16 (80 + Z.of_nat (length body) - 80)) with (Z.of_nat (length body)) by (rewrite u16_id; lia).
    rewrite PL. cbn [obind]. pose proof (whole_header_ok h be (Z.of_nat (length body)) H ltac:(lia)) as OK2.
    unfold send_once. cbn [s_out s_send_len with_out].
    replace (hbytes (whole_header h be (Z.of_nat (length body))) ++ rest) with ((hbytes (whole_header h be (Z.of_nat (length body))) ++ body) ++ skipn (80 + length body) (s_out s)) by (unfold rest; rewrite <- app_assoc; reflexivity).
    rewrite slice_head by (rewrite app_length, hbytes_length by exact OK2; lia). cbn [obind].
    unfold sent_whole. fold body. rewrite <- app_assoc. replace (80 + Z.of_nat (length body) - 80) with (Z.of_nat (length body)) by lia. reflexivity.
  - pose proof (first_header_ok h be H) as OK1.
    set (H1 := set_flags h pt_response 0 1 0 (if uuid_eqb (h_interface h) uuid_epmap then 0 else 1) be (h_bodylen h) 0 0 0).
    assert (OKH : rpch_ok H1).
    { apply set_flags_ok; try assumption; try apply flag0; try apply flag1; try (unfold byte, pt_response; lia). destruct (uuid_eqb _ _); [apply flag0|apply flag1]. }
    rewrite put_header_over by (try assumption; lia). cbn [obind]. change (u16 (1440 - 80)) with 1360.
    pose proof (put_len_ok H1 rest 1360 1440 OKH ltac:(lia) ltac:(lia) ltac:(lia)) as PL. change (h_be H1) with be in PL.
    rewrite PL. cbn [obind]. change (set_bodylen H1 1360) with (first_header h be). unfold sent_first. fold body. fold rest. reflexivity.
Qed.
