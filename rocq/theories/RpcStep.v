(** Every function of the RPC layer keeps the table of sessions in order; the only
    failures. *)
From Coq Require Import List ZArith Arith Bool Lia.
From Verif Require Import Base CpmModel CpmProps PpmModel PpmProps BlockModel BlockReadLemmas BlockReadProps BlockWriteProps RpcModel RpcLemmas RpcInv.
Import ListNotations.
Local Open Scope Z_scope.

(** * Acknowledge *)

(** Byte order and size of the next fragment. *)
Definition next_be (s : sess) (r : rd) : bool := if s_from_me s then true else r_be r.
Definition next_size (s : sess) : Z := if s_out_len s - next_pos s <? 1360 then s_out_len s - next_pos s else 1360.
Definition next_last (s : sess) : Z := if s_out_len s - next_pos s <? 1360 then 1 else 0.
Definition next_bytes (h : rpch) (r : rd) (s : sess) : list Z :=
  hbytes (next_header h s (next_be s r) (s_out_frag s + 1) (next_last s) (next_size s)) ++
  firstn (Z.to_nat (next_size s)) (skipn (Z.to_nat (next_pos s)) (s_out s)).
Definition next_session (h : rpch) (r : rd) (s : sess) : sess :=
  with_resend (with_out s (next_bytes h r s ++ skipn (Z.to_nat (80 + next_size s)) (s_out s)) (s_out_len s) (next_pos s)
    (next_size s + 80) (s_out_frag s + 1)) (s_resend s) 3.

Lemma next_last_flag : forall s, flag (next_last s).
Proof. intros s. unfold next_last. destruct (s_out_len s - next_pos s <? 1360); [apply flag1|apply flag0]. Qed.

Lemma more_facts : forall c s, cfg_ok c -> out_ok c s -> next_pos s < s_out_len s ->
  next_pos s = 1440 + 1360 * s_out_frag s /\ 0 <= s_out_frag s < 65535 /\ s_out_len s <= c_buf c /\ s_send_len s = 1440 /\ 0 < next_size s <= 1360 /\
  next_pos s + next_size s <= s_out_len s /\ (next_last s = 1 -> next_pos s + next_size s = s_out_len s) /\
  (next_last s = 0 -> next_size s = 1360).
Proof.
  intros c s C (A & B) M. unfold cfg_ok in C. unfold next_size, next_last.
  assert (P : next_pos s = 1440 + 1360 * s_out_frag s /\ 0 <= s_out_frag s < 65535 /\ s_send_len s = 1440).
  { unfold next_pos in *. destruct B as [(B1 & B2 & B3 & B4)|(B1 & B2 & B3 & B4 & B5 & B6)].
    - rewrite B1 in *. cbn in *. lia.
    - destruct (Z.eqb_spec (s_out_frag s) 0); lia. }
  destruct (Z.ltb_spec (s_out_len s - next_pos s) 1360); lia.
Qed.

Lemma put_header_over : forall h h' t len, rpch_ok h -> rpch_ok h' -> 80 <= len <= 80 + Z.of_nat (length t) -> len < 65536 ->
  put_header h (hbytes h' ++ t) len 0 = Ok (hbytes h ++ t, 80, 74).
Proof.
  intros h h' t len H H' L N. rewrite put_header_ok by (rewrite ?app_length, ?(hbytes_length h' H'); try assumption; lia).
  rewrite skipn_app, skipn_all2 by (rewrite hbytes_length by exact H'; lia). rewrite (hbytes_length h' H'). reflexivity.
Qed.

Lemma next_fragment_more : forall c o k h r st, cfg_ok c -> hdr_in h -> sess_ok c (sess_at c st k) ->
  next_pos (sess_at c st k) < s_out_len (sess_at c st k) ->
  next_fragment c o k h r st = send_with_timeout c o k (set_sess st k (next_session h r (sess_at c st k))).
Proof.
  intros c o k h r st C H S1 M. unfold next_fragment. cbn zeta. set (s := sess_at c st k) in *.
  destruct S1 as (I1 & I2 & I3 & I4 & I5 & I6).
  destruct (next_pos_model c s C I5) as (EP & PR & FR). rewrite EP.
  destruct (more_facts c s C I5 M) as (P & F & LE & SE & NS & NP & LA & LB). unfold cfg_ok in C.
  destruct (Z.ltb_spec (next_pos s) (s_out_len s)); [|lia].
  rewrite (u16_id (s_out_frag s + 1)) by lia. rewrite (u16_id (s_out_len s - next_pos s)) by lia.
  fold (next_be s r). set (be := next_be s r). set (f := s_out_frag s + 1).
  fold (next_header h s be f 0 (h_bodylen h)). fold (next_header h s be f 1 (h_bodylen h)).
  destruct (hdr_in_bytes h H) as (HB & _ & _ & _).
  assert (O0 : rpch_ok (next_header h s be f 0 (h_bodylen h))) by (apply next_header_ok; [exact H|apply flag0|unfold f; lia|lia]).
  assert (O1 : rpch_ok (next_header h s be f 1 (h_bodylen h))) by (apply next_header_ok; [exact H|apply flag1|unfold f; lia|lia]).
  rewrite put_header_ok by (try exact O0; unfold max_payload; lia). cbn [obind].
  assert (LS : Z.of_nat (length (skipn 80 (s_out s))) = c_buf c - 80) by (rewrite skipn_length; lia).
  assert (Y : (if s_out_len s - next_pos s <? max_payload - 80
     then do x0 <- put_header (next_header h s be f 1 (h_bodylen h)) (hbytes (next_header h s be f 0 (h_bodylen h)) ++ skipn 80 (s_out s)) max_payload 0;
          let '(b, _, lp) := x0 in Ok (b, s_out_len s - next_pos s, lp)
     else Ok (hbytes (next_header h s be f 0 (h_bodylen h)) ++ skipn 80 (s_out s), max_payload - 80, 74)) =
    Ok (hbytes (next_header h s be f (next_last s) (h_bodylen h)) ++ skipn 80 (s_out s), next_size s, 74)).
  { unfold next_last, next_size, max_payload. change (1440 - 80) with 1360.
    destruct (Z.ltb_spec (s_out_len s - next_pos s) 1360); [|reflexivity].
    rewrite put_header_over by (try exact O0; try exact O1; lia). reflexivity. }
  rewrite Y. cbn [obind]. clear Y.
  assert (OL : rpch_ok (next_header h s be f (next_last s) (h_bodylen h))).
  { apply next_header_ok; [exact H| |unfold f; lia|lia]. apply next_last_flag. }
  pose proof (hbytes_length _ OL) as LH.
  unfold max_payload. destruct (Z.ltb_spec 1440 (80 + next_size s)); [lia|].
  rewrite slice_ok by (rewrite ?app_length; lia). cbn [obind].
  assert (SK : skipn (Z.to_nat (next_pos s)) (hbytes (next_header h s be f (next_last s) (h_bodylen h)) ++ skipn 80 (s_out s)) =
               skipn (Z.to_nat (next_pos s)) (s_out s)).
  { rewrite skipn_app, skipn_all2 by lia. rewrite LH. cbn [Datatypes.app]. rewrite skipn_skipn. f_equal. lia. }
  rewrite SK. set (d := firstn (Z.to_nat (next_size s)) (skipn (Z.to_nat (next_pos s)) (s_out s))).
  assert (LD : Z.of_nat (length d) = next_size s) by (unfold d; rewrite firstn_length, skipn_length; lia).
  rewrite poke_ok by (rewrite ?app_length; lia). cbn [obind]. change (Z.to_nat 80) with 80%nat.
  rewrite firstn_app, firstn_all2 by lia. rewrite LH, Nat.sub_diag. cbn [firstn]. rewrite app_nil_r.
  rewrite skipn_app, skipn_all2 by lia. rewrite LH. cbn [Datatypes.app]. rewrite skipn_skipn.
  replace (80 + (80 + length d - 80))%nat with (80 + length d)%nat by lia.
  change be with (h_be (next_header h s be f (next_last s) (h_bodylen h))) at 1.
  rewrite put_len_ok; [|exact OL|lia|rewrite app_length, skipn_length; lia|lia]. cbn [obind].
  unfold next_session, next_bytes. fold be f d. change number_of_resends with 3.
  rewrite u16_id by lia. rewrite <- app_assoc.
  replace (Z.to_nat (80 + next_size s)) with (80 + length d)%nat by lia. reflexivity.
Qed.

Lemma next_session_ok : forall c h r s, cfg_ok c -> hdr_in h -> sess_ok c s -> next_pos s < s_out_len s -> sess_ok c (next_session h r s).
Proof.
  intros c h r s C H S1 M. pose proof S1 as (I1 & I2 & I3 & I4 & I5 & I6).
  destruct (more_facts c s C I5 M) as (P & F & LE & SE & NS & NP & LA & LB). unfold cfg_ok in C.
  assert (OL : rpch_ok (next_header h s (next_be s r) (s_out_frag s + 1) (next_last s) (next_size s))).
  { apply next_header_ok; [exact H| |lia|lia]. apply next_last_flag. }
  unfold sess_ok, out_ok, next_session. cbn [s_in s_out s_in_len s_in_frag s_out_len s_out_frag s_sent_pos s_send_len s_counter with_resend with_out].
  split; [exact I1|]. split.
  { unfold next_bytes. rewrite !app_length, (hbytes_length _ OL), firstn_length, !skipn_length. lia. }
  split; [exact I3|]. split; [exact I4|]. split; [|lia]. split; [lia|]. right.
  split; [lia|]. split; [lia|]. split; [lia|]. split; [lia|]. split; [lia|].
  unfold next_size in *. destruct (Z.ltb_spec (s_out_len s - next_pos s) 1360); lia.
Qed.

Lemma next_fragment_ok : forall c o k h r st, cfg_ok c -> net_ok c st -> hdr_in h -> (k < length (n_sess st))%nat ->
  exists st' e, next_fragment c o k h r st = Ok (st', e) /\ net_ok c st'.
Proof.
  intros c o k h r st C N H L. pose proof (proj2 N k) as S1.
  destruct (Z.lt_ge_cases (next_pos (sess_at c st k)) (s_out_len (sess_at c st k))) as [M|M].
  - rewrite next_fragment_more by assumption.
    apply send_with_timeout_ok; [exact C|apply set_ok; [exact N|apply next_session_ok; assumption]|].
    right. left. rewrite sess_at_set_same by exact L. reflexivity.
  - unfold next_fragment. cbn zeta. destruct S1 as (I1 & I2 & I3 & I4 & I5 & I6).
    destruct (next_pos_model c _ C I5) as (EP & PR & FR). rewrite EP.
    destruct (Z.ltb_spec (next_pos (sess_at c st k)) (s_out_len (sess_at c st k))); [lia|].
    eexists _, _. split; [reflexivity|]. apply set_ok; [exact N|].
    unfold sess_ok, out_ok. unfold cfg_ok in C. cbn. repeat split; try assumption; try lia; tauto.
Qed.

(** * Incoming messages *)
Definition frame_ok (frame : list Z) : Prop := length frame = 1500%nat /\ Forall byte frame.

Lemma begin_ok : forall c ip port h s, cfg_ok c -> sess_ok c s -> sess_ok c (begin_message ip port h s).
Proof.
  intros c ip port h s C S1. unfold cfg_ok in C. destruct S1 as (I1 & I2 & I3 & I4 & I5 & I6). unfold sess_ok, out_ok, begin_message in *. cbn.
  split; [exact I1|]. split; [exact I2|]. split; [lia|]. split; [lia|]. split; [exact I5|exact I6].
Qed.

Lemma err_ok : forall c s b, sess_ok c s -> sess_ok c (with_err s b).
Proof. intros c s b H. exact H. Qed.

Lemma collect_ok : forall c ip port h frame r s, cfg_ok c -> hdr_in h -> h_bodylen h <= 1384 -> length frame = 1500%nat -> 0 <= r_pos r <= 80 -> rok r ->
  Forall byte frame -> sess_ok c s ->
  exists s' r', collect c ip port h frame r s = Ok (s', r') /\ sess_ok c s' /\ rok r' /\ s_ar s' = s_ar s.
Proof.
  intros c ip port h frame r s C H B F P R FF S1. pose proof (proj2 (proj1 S1)) as FI. unfold collect. destruct (hdr_in_bytes h H) as (HB & HF & _ & _).
  destruct (h_frag h =? 0).
  { eexists _, _. split; [reflexivity|]. split; [apply begin_ok; assumption|]. auto. }
  set (s1 := if h_fragnmb h =? 0 then begin_message ip port h s else if Bool.eqb (s_be s) (h_be h) then s else with_err s true).
  assert (S2 : sess_ok c s1).
  { unfold s1. destruct (h_fragnmb h =? 0); [apply begin_ok; assumption|]. destruct (Bool.eqb _ _); [exact S1|apply err_ok; exact S1]. }
  assert (E2 : s_in s1 = s_in s /\ s_ar s1 = s_ar s).
  { unfold s1. destruct (h_fragnmb h =? 0); [split; reflexivity|]. destruct (Bool.eqb _ _); split; reflexivity. }
  clearbody s1. destruct E2 as [E2 E3]. cbn zeta.
  destruct (s_in_frag s1 =? h_fragnmb h); cbn [negb].
  2:{ eexists _, _. split; [reflexivity|]. split; [apply err_ok; exact S2|]. split; [exact R|]. exact E3. }
  destruct (Z.ltb_spec (c_buf c) (s_in_len s1 + h_bodylen h)).
  { eexists _, _. split; [reflexivity|]. split; [apply err_ok; exact S2|]. split; [exact R|]. exact E3. }
  pose proof S2 as ([I1 _] & I2 & I3 & I4 & I5 & I6). unfold cfg_ok in C.
  rewrite slice_ok by lia. cbn [obind].
  set (d := firstn (Z.to_nat (h_bodylen h)) (skipn (Z.to_nat (r_pos r)) frame)).
  assert (LD : Z.of_nat (length d) = h_bodylen h) by (unfold d; rewrite firstn_length, skipn_length; lia).
  assert (FD : Forall byte d).
  { apply Forall_forall. intros x X. unfold d in X. rewrite Forall_forall in FF. apply FF.
    rewrite <- (firstn_skipn (Z.to_nat (r_pos r)) frame). apply in_or_app. right.
    rewrite <- (firstn_skipn (Z.to_nat (h_bodylen h)) (skipn (Z.to_nat (r_pos r)) frame)). apply in_or_app. left. exact X. }
  clearbody d. rewrite poke_ok by lia. cbn [obind]. fold (put_at (s_in s1) (Z.to_nat (s_in_len s1)) d).
  assert (LP : length (put_at (s_in s1) (Z.to_nat (s_in_len s1)) d) = length (s_in s1)) by (apply put_at_length; lia).
  assert (FP : Forall byte (put_at (s_in s1) (Z.to_nat (s_in_len s1)) d)).
  { rewrite E2. unfold put_at. apply Forall_app. split; [|apply Forall_app; split; [exact FD|]].
    - apply Forall_forall. intros x X. rewrite Forall_forall in FI. apply FI. rewrite <- (firstn_skipn (Z.to_nat (s_in_len s1)) (s_in s)). apply in_or_app. left. exact X.
    - apply Forall_forall. intros x X. rewrite Forall_forall in FI. apply FI. rewrite <- (firstn_skipn (Z.to_nat (s_in_len s1) + length d) (s_in s)). apply in_or_app. right. exact X. }
  eexists _, _. split; [reflexivity|]. cbn [s_in s_in_len s_in_frag with_in s_ar]. rewrite (u16_id (s_in_len s1 + h_bodylen h)) by lia.
  split.
  { unfold sess_ok. cbn. rewrite LP. pose proof (u16_range (s_in_frag s1 + 1)) as UR.
    split; [split; [exact I1|exact FP]|]. split; [exact I2|]. split; [lia|]. split; [lia|]. split; [exact I5|exact I6]. }
  split; [|auto].
  destruct (h_last h =? 0); [exact R|]. unfold rok. cbn. split; [lia|]. split; [lia|]. split; [lia|exact FP].
Qed.

(** * How far the parser of the header gets *)
Definition adv {A} (n : Z) (m : reader A) : Prop := forall r a r', rok r -> m r = Ok (a, r') -> rok r' /\ r_pos r' <= r_pos r + n.

Lemma adv_bind : forall A B (m : reader A) (f : A -> reader B) n1 n2, adv n1 m -> (forall a, adv n2 (f a)) -> adv (n1 + n2) (rbind m f).
Proof.
  intros A B m f n1 n2 H1 H2 r b r' R E. unfold rbind in E. destruct (m r) as [[a r1]| |] eqn:E1; try discriminate. cbn [obind] in E.
  destruct (H1 r a r1 R E1) as [R1 P1]. destruct (H2 a r1 b r' R1 E) as [R2 P2]. split; [exact R2|lia].
Qed.
Lemma adv_ret : forall A (a : A), adv 0 (rret a).
Proof. intros A a r x r' R E. injection E as <- <-. split; [exact R|lia]. Qed.
Lemma adv_byte : adv 1 get_byte.
Proof.
  intros r a r' R E. split.
  - destruct (safe_byte true r R) as (a2 & r2 & E2 & _ & S1). rewrite E2 in E. injection E as <- <-. eapply rok_step; eauto.
  - unfold get_byte in E. destruct (negb (is_ok (r_res r))); [injection E as <- <-; lia|].
    destruct (r_len r <=? r_pos r); [injection E as <- <-; cbn; lia|]. destruct (r_buf r); [|injection E as <- <-; cbn; lia].
    destruct (byte_at l (r_pos r)); try discriminate. cbn [obind] in E. injection E as <- <-. cbn.
    destruct R as (R & _). unfold u16. pose proof (Z.mod_le (r_pos r + 1) 65536). lia.
Qed.
Lemma adv_weak : forall A n n' (m : reader A), adv n m -> n <= n' -> adv n' m.
Proof. intros A n n' m H L r a r' R E. destruct (H r a r' R E). split; [assumption|lia]. Qed.
Lemma adv_u16 : adv 2 get_u16.
Proof.
  intros r a r' R E. unfold get_u16 in E. destruct (negb (is_ok (r_res r))); [injection E as <- <-; split; [exact R|lia]|].
  refine (adv_bind _ _ _ _ 1 1 adv_byte _ r a r' R E). intros x. apply (adv_bind _ _ _ _ 1 0 adv_byte). intros y. apply adv_ret.
Qed.
Lemma adv_u32 : adv 4 get_u32.
Proof.
  intros r a r' R E. unfold get_u32 in E.
  refine (adv_bind _ _ _ _ 1 3 adv_byte _ r a r' R E). intros x. apply (adv_bind _ _ _ _ 1 2 adv_byte). intros y.
  apply (adv_bind _ _ _ _ 1 1 adv_byte). intros z. apply (adv_bind _ _ _ _ 1 0 adv_byte). intros w. apply adv_ret.
Qed.
Lemma adv_mem_into : forall old, length old = 8%nat -> adv 8 (get_mem_into 8 old 8).
Proof.
  intros old L r a r' R E.
  destruct (safe_mem_into true 8 old 8 ltac:(lia) ltac:(rewrite L; reflexivity) r R) as (a2 & r2 & E2 & _ & S1).
  split; [rewrite E2 in E; injection E as <- <-; eapply rok_step; eauto|].
  unfold get_mem_into, get_mem in E. destruct (negb (is_ok (r_res r))); [injection E as <- <-; lia|].
  destruct (r_len r <? r_pos r + 8); [injection E as <- <-; cbn; lia|]. destruct (r_buf r); [|injection E as <- <-; cbn; lia].
  destruct (slice l (r_pos r) 8); try discriminate. cbn [obind Z.ltb Z.compare Pos.compare Pos.compare_cont] in E. injection E as <- <-. cbn.
  destruct R as (R & _). unfold u16. pose proof (Z.mod_le (r_pos r + 8) 65536). lia.
Qed.
Lemma adv_uuid : forall old, length old = 8%nat -> adv 16 (get_uuid old).
Proof.
  intros old L. unfold get_uuid. apply (adv_bind _ _ _ _ 4 12 adv_u32). intros x. apply (adv_bind _ _ _ _ 2 10 adv_u16). intros y.
  apply (adv_bind _ _ _ _ 2 8 adv_u16). intros z. apply (adv_bind _ _ _ _ 8 0 (adv_mem_into old L)). intros w. apply adv_ret.
Qed.
Lemma adv_endian : forall b, adv 0 (set_endian b).
Proof. intros b r a r' R E. injection E as <- <-. split; [exact R|cbn; lia]. Qed.

Lemma adv_header : forall a b c, length a = 8%nat -> length b = 8%nat -> length c = 8%nat -> adv 80 (get_dce_rpc_header a b c).
Proof.
  intros a b c La Lb Lc. unfold get_dce_rpc_header.
  apply (adv_bind _ _ _ _ 1 79 adv_byte); intros. apply (adv_bind _ _ _ _ 1 78 adv_byte); intros.
  apply (adv_bind _ _ _ _ 1 77 adv_byte); intros. apply (adv_bind _ _ _ _ 1 76 adv_byte); intros.
  apply (adv_bind _ _ _ _ 1 75 adv_byte); intros. cbn zeta.
  match goal with |- adv 75 (rbind (set_endian ?e) _) => apply (adv_bind _ _ _ _ 0 75 (adv_endian e)); intros end.
  apply (adv_bind _ _ _ _ 1 74 adv_byte); intros. apply (adv_bind _ _ _ _ 1 73 adv_byte); intros.
  apply (adv_bind _ _ _ _ 1 72 adv_byte); intros.
  apply (adv_bind _ _ _ _ 16 56 (adv_uuid a La)); intros. apply (adv_bind _ _ _ _ 16 40 (adv_uuid b Lb)); intros.
  apply (adv_bind _ _ _ _ 16 24 (adv_uuid c Lc)); intros.
  apply (adv_bind _ _ _ _ 4 20 adv_u32); intros. apply (adv_bind _ _ _ _ 4 16 adv_u32); intros. apply (adv_bind _ _ _ _ 4 12 adv_u32); intros.
  apply (adv_bind _ _ _ _ 2 10 adv_u16); intros. apply (adv_bind _ _ _ _ 2 8 adv_u16); intros. apply (adv_bind _ _ _ _ 2 6 adv_u16); intros.
  apply (adv_bind _ _ _ _ 2 4 adv_u16); intros. apply (adv_bind _ _ _ _ 2 2 adv_u16); intros.
  apply (adv_bind _ _ _ _ 1 1 adv_byte); intros. apply (adv_bind _ _ _ _ 1 0 adv_byte); intros. apply adv_ret.
Qed.

(** The header of any datagram. *)
Lemma parse_ok : forall frame len old, frame_ok frame -> 0 <= len <= 1500 -> length old = 8%nat ->
  exists h r, get_dce_rpc_header old old old (mkRd (Some frame) len false POk 0) = Ok (h, r) /\ hdr_in h /\ rok r /\
    0 <= r_pos r <= 80 /\ r_buf r = Some frame /\ r_len r = len.
Proof.
  intros frame len old [F1 F2] L O.
  assert (R : rok (mkRd (Some frame) len false POk 0)).
  { unfold rok. cbn. split; [lia|]. split; [lia|]. split; [lia|exact F2]. }
  destruct (safe_rpc_header_in true old old old O O O _ R) as (h & r & E & H & S1).
  exists h, r. split; [exact E|]. split; [exact H|]. destruct (adv_header old old old O O O _ h r R E) as [R1 P1]. cbn [r_pos] in P1.
  split; [exact R1|]. split; [destruct R1; lia|]. destruct S1 as (A & B & _). auto.
Qed.

(** * Complete messages *)
Lemma act_ok : forall c o k fresh h r st, cfg_ok c -> net_ok c st -> hdr_in h -> rok r -> (k < length (n_sess st))%nat ->
  (exists st' e, act c o k fresh h r st = Ok (st', e) /\ net_ok c st') \/
  (act c o k fresh h r st = AssertFail /\ h_ptype h = 2 /\ h_opnum h = 4 /\ fresh = false /\ s_ar (sess_at c st k) = None).
Proof.
  intros c o k fresh h r st C N H R L. unfold act. cbn zeta.
  set (clear := set_sess st k (with_out (sess_at c st k) (s_out (sess_at c st k)) 0 0 0 0)).
  assert (NC : net_ok c clear).
  { apply set_ok; [exact N|]. destruct (proj2 N k) as (I1 & I2 & I3 & I4 & I5 & I6). unfold sess_ok, out_ok. unfold cfg_ok in C. cbn. repeat split; try assumption; try lia; tauto. }
  assert (LC : (k < length (n_sess clear))%nat) by (unfold clear; rewrite length_set_sess; exact L).
  destruct (h_ptype h =? pt_ping).
  { left. rewrite answer_ping_ok by exact H. cbn [obind]. eexists _, _. split; [reflexivity|]. apply set_ok; [exact NC|]. exact (proj2 NC k). }
  destruct (h_ptype h =? pt_request); [left; apply answer_request_ok; assumption|].
  destruct (h_ptype h =? pt_frag_ack); [left; apply next_fragment_ok; assumption|].
  destruct (Z.eqb_spec (h_ptype h) pt_response) as [T|T].
  { unfold response. destruct fresh.
    - left. eexists _, _. split; [reflexivity|]. unfold kill_if. apply set_ok; [exact N|exact (proj2 N k)].
    - destruct (get_ndr_ok r R) as (nd & r' & E & R' & _). rewrite E. cbn [obind].
      destruct (Z.eqb_spec (h_opnum h) op_control) as [OC|OC]; [|left; eexists _, _; split; [reflexivity|exact N]].
      destruct (s_ar (sess_at c st k)) eqn:A; [|right; auto].
      left. eexists _, _. split; [reflexivity|]. unfold kill_if. apply set_ok; [exact N|exact (proj2 N k)]. }
  destruct ((h_ptype h =? pt_cl_cancel) || (h_ptype h =? pt_fault) || (h_ptype h =? pt_reject)).
  { left. pose proof (touches_ok c k st _ _ C (cancel_touches c k st L) N) as N1. destruct (cancel c k st) as [st1 e]. eexists _, _. split; [reflexivity|exact N1]. }
  left. eexists _, _. split; [reflexivity|exact N].
Qed.

(** * A datagram *)

(** The session of a datagram. *)
Definition session_for (c : cfg) (o : hres) (ip port : Z) (h : rpch) (st : net) : option (nat * bool * net) :=
  match locate (n_sess st) 0 (h_activity h) with
  | Some k => Some (k, false, st)
  | None => match allocate c (o_uuid o) st with
            | Some (k, st1) => Some (k, true, set_sess st1 k (with_socket (with_peer (sess_at c st1 k) ip port) (c_pnio c)))
            | None => None
            end
  end.

Lemma locate_spec : forall u l k0 k, locate l k0 u = Some k ->
  (k0 <= k < k0 + length l)%nat /\ (forall d, s_used (nth (k - k0) l d) = true /\ uuid_eqb u (s_uuid (nth (k - k0) l d)) = true).
Proof.
  intros u l. induction l as [|s t IH]; intros k0 k H; cbn [locate] in H; [discriminate|].
  destruct (s_used s) eqn:U; cbn [negb orb] in H.
  - destruct (uuid_eqb u (s_uuid s)) eqn:E; cbn [negb] in H.
    + injection H as <-. cbn [length]. split; [lia|]. rewrite Nat.sub_diag. auto.
    + destruct (IH _ _ H) as [A B]. cbn [length]. split; [lia|]. replace (k - k0)%nat with (S (k - S k0)) by lia. exact B.
  - destruct (IH _ _ H) as [A B]. cbn [length]. split; [lia|]. replace (k - k0)%nat with (S (k - S k0)) by lia. exact B.
Qed.

Lemma locate_none : forall u l k0, locate l k0 u = None -> forall s, In s l -> s_used s = true -> uuid_eqb u (s_uuid s) = false.
Proof.
  intros u l. induction l as [|s t IH]; intros k0 H x I U; [destruct I|]. cbn [locate] in H.
  destruct (s_used s) eqn:Us; cbn [negb orb] in H.
  - destruct (uuid_eqb u (s_uuid s)) eqn:E; cbn [negb] in H; [discriminate|].
    destruct I as [->|I]; [exact E|]. exact (IH _ H x I U).
  - destruct I as [->|I]; [congruence|]. exact (IH _ H x I U).
Qed.

Lemma first_free_spec : forall l k0 k, first_free l k0 = Some k -> (k0 <= k < k0 + length l)%nat /\ forall d, s_used (nth (k - k0) l d) = false.
Proof.
  intros l. induction l as [|s t IH]; intros k0 k H; cbn [first_free] in H; [discriminate|].
  destruct (s_used s) eqn:U.
  - destruct (IH _ _ H) as [A B]. cbn [length]. split; [lia|]. replace (k - k0)%nat with (S (k - S k0)) by lia. exact B.
  - injection H as <-. cbn [length]. split; [lia|]. rewrite Nat.sub_diag. auto.
Qed.

Lemma first_free_none : forall l k0, first_free l k0 = None -> forall s, In s l -> s_used s = true.
Proof.
  intros l. induction l as [|s t IH]; intros k0 H x I; [destruct I|]. cbn [first_free] in H.
  destruct (s_used s) eqn:U; [|discriminate]. destruct I as [->|I]; [exact U|]. exact (IH _ H x I).
Qed.

Lemma new_session_ok : forall c u, cfg_ok c -> sess_ok c (new_session c u).
Proof. intros c u C. exact (blank_ok c C). Qed.

Lemma session_for_ok : forall c o ip port h st k fresh st1, cfg_ok c -> net_ok c st -> session_for c o ip port h st = Some (k, fresh, st1) ->
  net_ok c st1 /\ (k < length (n_sess st1))%nat /\ n_ar st1 = n_ar st /\ (forall j, j <> k -> sess_at c st1 j = sess_at c st j) /\
  (fresh = false -> st1 = st /\ s_used (sess_at c st k) = true /\ uuid_eqb (h_activity h) (s_uuid (sess_at c st k)) = true) /\
  (fresh = true -> s_used (sess_at c st k) = false /\ (forall s, In s (n_sess st) -> s_used s = true -> uuid_eqb (h_activity h) (s_uuid s) = false) /\
     sess_at c st1 k = with_socket (with_peer (new_session c (o_uuid o)) ip port) (c_pnio c)).
Proof.
  intros c o ip port h st k fresh st1 C N H. unfold session_for in H.
  destruct (locate (n_sess st) 0 (h_activity h)) as [k0|] eqn:E.
  - injection H as <- <- <-. destruct (locate_spec _ _ _ _ E) as [A B]. specialize (B (blank c)). rewrite Nat.sub_0_r in B.
    split; [exact N|]. split; [lia|]. split; [reflexivity|]. split; [reflexivity|]. split; [intros _; auto|discriminate].
  - unfold allocate in H. destruct (first_free (n_sess st) 0) as [k0|] eqn:F; [|discriminate]. injection H as <- <- <-.
    destruct (first_free_spec _ _ _ F) as [A B]. specialize (B (blank c)). rewrite Nat.sub_0_r in B.
    assert (L0 : (k0 < length (n_sess st))%nat) by lia.
    rewrite set_sess_twice. rewrite sess_at_set_same by exact L0.
    split; [apply set_ok; [exact N|exact (new_session_ok c (o_uuid o) C)]|]. split; [rewrite length_set_sess; exact L0|].
    split; [reflexivity|]. split; [intros j J; apply sess_at_set_other; exact J|]. split; [discriminate|].
    intros _. split; [exact B|]. split; [exact (locate_none _ _ _ E)|]. apply sess_at_set_same. exact L0.
Qed.

(** A datagram after its session is found. *)
Definition session_step (c : cfg) (o : hres) (ip port : Z) (frame : list Z) (h : rpch) (r : rd) (k : nat) (fresh : bool) (st1 : net) : outcome (net * list ev) :=
  let s := with_err (sess_at c st1 k) false in
  let big := max_body <? h_bodylen h in
  do x <- (if big then Ok (s, r) else collect c ip port h frame r s);
  let '(s1, r1) := x in
  let s2 := with_resend s1 false (s_counter s1) in
  let st2 := set_sess st1 k s2 in
  do y <- (if big then do e <- answer_reject o k h s2; Ok (set_sess st2 k (with_kill s2 fresh), e)
           else if (h_frag h =? 0) || negb (h_last h =? 0) then act c o k fresh h r1 st2
           else if h_nofack h =? 0 then do e <- answer_ack o k h s2; Ok (st2, e)
           else Ok (st2, []));
  let '(st3, e) := y in
  if s_kill (sess_at c st3 k) then let '(st4, e') := release c k st3 in Ok (st4, e ++ e')
  else Ok (st3, e).

Lemma packet_steps : forall c o ip port frame h r st, packet c o ip port frame h r st =
  match session_for c o ip port h st with
  | None => Ok (st, [])
  | Some (k, fresh, st1) => session_step c o ip port frame h r k fresh st1
  end.
Proof. reflexivity. Qed.

Lemma session_step_ok : forall c o ip port frame h r k fresh st, cfg_ok c -> net_ok c st -> hdr_in h -> rok r -> 0 <= r_pos r <= 80 -> frame_ok frame ->
  (k < length (n_sess st))%nat ->
  (exists st' e, session_step c o ip port frame h r k fresh st = Ok (st', e) /\ net_ok c st') \/
  (session_step c o ip port frame h r k fresh st = AssertFail /\ h_ptype h = 2 /\ h_opnum h = 4 /\ fresh = false /\ s_ar (sess_at c st k) = None).
Proof.
  intros c o ip port frame h r k fresh st C N H R P [F1 F2] L. unfold session_step. cbn zeta.
  set (s := with_err (sess_at c st k) false). assert (S1 : sess_ok c s) by (exact (proj2 N k)).
  assert (X : exists s1 r1, (if max_body <? h_bodylen h then Ok (s, r) else collect c ip port h frame r s) = Ok (s1, r1) /\ sess_ok c s1 /\ rok r1 /\ s_ar s1 = s_ar s).
  { destruct (Z.ltb_spec max_body (h_bodylen h)) as [B|B].
    - eexists _, _. split; [reflexivity|]. auto.
    - change max_body with 1384 in B. destruct (collect_ok c ip port h frame r s C H B F1 P R F2 S1) as (s1 & r1 & E & A1 & A2 & A3). exists s1, r1. auto. }
  destruct X as (s1 & r1 & E & S2 & R1 & A1). rewrite E. cbn [obind]. clear E.
  set (s2 := with_resend s1 false (s_counter s1)). assert (S3 : sess_ok c s2) by exact S2.
  set (st2 := set_sess st k s2). assert (N2 : net_ok c st2) by (apply set_ok; assumption).
  assert (L2 : (k < length (n_sess st2))%nat) by (unfold st2; rewrite length_set_sess; exact L).
  assert (Y : let q := (if max_body <? h_bodylen h then do e <- answer_reject o k h s2; Ok (set_sess st2 k (with_kill s2 fresh), e)
           else if (h_frag h =? 0) || negb (h_last h =? 0) then act c o k fresh h r1 st2
           else if h_nofack h =? 0 then do e <- answer_ack o k h s2; Ok (st2, e)
           else Ok (st2, [])) in
    (exists st' e, q = Ok (st', e) /\ net_ok c st') \/
    (q = AssertFail /\ h_ptype h = 2 /\ h_opnum h = 4 /\ fresh = false /\ s_ar (sess_at c st k) = None)).
  { cbn zeta. destruct (max_body <? h_bodylen h).
    - left. rewrite answer_reject_ok by exact H. cbn [obind]. eexists _, _. split; [reflexivity|]. apply set_ok; [exact N2|exact S3].
    - destruct ((h_frag h =? 0) || negb (h_last h =? 0)).
      + destruct (act_ok c o k fresh h r1 st2 C N2 H R1 L2) as [A|(A & B1 & B2 & B3 & B4)]; [left; exact A|right].
        split; [exact A|]. split; [exact B1|]. split; [exact B2|]. split; [exact B3|].
        unfold st2 in B4. rewrite sess_at_set_same in B4 by exact L. change (s_ar s1 = None) in B4. rewrite A1 in B4. exact B4.
      + destruct (h_nofack h =? 0); left.
        * rewrite answer_ack_ok by exact H. cbn [obind]. eexists _, _. split; [reflexivity|exact N2].
        * eexists _, _. split; [reflexivity|exact N2]. }
  cbn zeta in Y. destruct Y as [(st3 & e & -> & N3)|(-> & Y)]; [|right; split; [reflexivity|exact Y]]. cbn [obind].
  left. destruct (s_kill (sess_at c st3 k)).
  - pose proof (release_net_ok c k st3 C N3) as N4. destruct (release c k st3) as [st4 e']. eexists _, _. split; [reflexivity|exact N4].
  - eexists _, _. split; [reflexivity|exact N3].
Qed.

Lemma packet_ok : forall c o ip port frame h r st, cfg_ok c -> net_ok c st -> hdr_in h -> rok r -> 0 <= r_pos r <= 80 -> frame_ok frame ->
  (exists st' e, packet c o ip port frame h r st = Ok (st', e) /\ net_ok c st') \/
  (packet c o ip port frame h r st = AssertFail /\ h_ptype h = 2 /\ h_opnum h = 4 /\
   exists k, s_used (sess_at c st k) = true /\ uuid_eqb (h_activity h) (s_uuid (sess_at c st k)) = true /\ s_ar (sess_at c st k) = None).
Proof.
  intros c o ip port frame h r st C N H R P F. rewrite packet_steps.
  destruct (session_for c o ip port h st) as [[[k fresh] st1]|] eqn:E; [|left; eexists _, _; split; [reflexivity|exact N]].
  destruct (session_for_ok _ _ _ _ _ _ _ _ _ C N E) as (N1 & L1 & _ & _ & X & _).
  destruct (session_step_ok c o ip port frame h r k fresh st1 C N1 H R P F L1) as [A|(A & B1 & B2 & B3 & B4)]; [left; exact A|right].
  split; [exact A|]. split; [exact B1|]. split; [exact B2|]. destruct (X B3) as (-> & X1 & X2). exists k. auto.
Qed.

(** * The application is ready *)
Lemma ccontrol_ok : forall c o i sock obj st, cfg_ok c -> net_ok c st -> uuid_ok obj -> uuid_ok (o_uuid o) ->
  exists st' e, ccontrol c o i sock obj st = Ok (st', e) /\ net_ok c st'.
Proof.
  intros c o i sock obj st C N UO UU. unfold ccontrol. destruct (ar_at st i) as [j|]; [|eexists _, _; split; [reflexivity|exact N]].
  unfold allocate. destruct (first_free (n_sess st) 0) as [k|] eqn:F; [|eexists _, _; split; [reflexivity|exact N]].
  destruct (first_free_spec _ _ _ F) as [A _].
  set (st1 := set_sess st k (new_session c (o_uuid o))).
  assert (N1 : net_ok c st1) by (apply set_ok; [exact N|apply new_session_ok; exact C]).
  assert (L1 : (k < length (n_sess st1))%nat) by (unfold st1; rewrite length_set_sess; lia).
  cbn zeta. set (s := with_id _ _ _).
  assert (S1 : sess_ok c s) by exact (proj2 N1 k).
  assert (HO : forall frag, flag frag -> rpch_ok (mkRpch 4 pt_request 0 frag 0 0 1 0 0 true 0 0 0 obj uuid_io_controller (o_uuid o) 0 1 0 op_control 65535 65535 0 0 0 0)).
  { intros frag Fr. pose proof flag0. pose proof flag1. unfold rpch_ok, byte, pt_request, op_control. cbn.
    assert (uuid_ok uuid_io_controller) by (unfold uuid_ok; cbn; lia).
    repeat (split; [first [assumption|lia|reflexivity]|]); lia. }
  pose proof (blank_ok c C) as (_ & Z2 & _). cbn [s_out blank] in Z2. unfold cfg_ok in C.
  rewrite put_header_ok by (try apply HO; try apply flag0; lia). cbn [obind].
  pose proof (hbytes_length _ (HO 0 flag0)) as LH.
  set (body := firstn (Z.to_nat (c_buf c - 80)) (o_body o)).
  assert (LB : Z.of_nat (length body) <= c_buf c - 80) by (unfold body; rewrite firstn_length; lia). clearbody body.
  rewrite poke_ok by (rewrite ?app_length, ?skipn_length, ?LH; lia). cbn [obind].
  match goal with |- context [firstn (Z.to_nat 80) ?b ++ _] => set (b0 := b) end.
  assert (LB0 : Z.of_nat (length b0) = c_buf c) by (unfold b0; rewrite app_length, skipn_length, LH; lia).
  fold (put_at b0 (Z.to_nat 80) body).
  assert (LB1 : length (put_at b0 (Z.to_nat 80) body) = length b0) by (apply put_at_length; lia).
  set (b1 := put_at b0 (Z.to_nat 80) body) in *.
  set (total := 80 + Z.of_nat (length body)).
  assert (Y : exists b2 send lp, (if total <? max_payload then Ok (b1, total, 74)
     else do x <- put_header (mkRpch 4 pt_request 0 1 0 0 1 0 0 true 0 0 0 obj uuid_io_controller (o_uuid o) 0 1 0 op_control 65535 65535 0 0 0 0) b1 max_payload 0;
          let '(b, _, lp) := x in Ok (b, max_payload, lp)) = Ok (b2, send, lp) /\ Z.of_nat (length b2) = c_buf c /\ lp = 74 /\
     0 <= send <= total /\ (send < total -> send = 1440)).
  { destruct (Z.ltb_spec total max_payload) as [G|G].
    - eexists _, _, _. split; [reflexivity|]. unfold total in *. lia.
    - unfold max_payload in *. unfold total in *. rewrite put_header_ok by (try apply HO; try apply flag1; lia). cbn [obind].
      eexists _, _, _. split; [reflexivity|]. rewrite app_length, skipn_length, (hbytes_length _ (HO 1 flag1)). lia. }
  destruct Y as (b2 & send & lp & -> & LB2 & -> & SD & SD2). cbn [obind].
  assert (Q : exists b3, put_len true (u16 (send - 80)) b2 max_payload 74 = Ok b3 /\ length b3 = length b2).
  { unfold put_len, put_u16, wseq, put_byte. cbn [w_len w_pos w_buf]. change (max_payload <? 74 + 1) with false. cbn match.
    rewrite poke_ok by (cbn [length]; lia). cbn [obind w_len w_pos w_buf]. change (u16 (74 + 1)) with 75. change (max_payload <? 75 + 1) with false. cbn match.
    match goal with |- context [firstn (Z.to_nat 74) b2 ++ ?x ++ ?y] => fold (put_at b2 (Z.to_nat 74) x); set (b4 := put_at b2 (Z.to_nat 74) x) end.
    assert (LB4 : length b4 = length b2) by (apply put_at_length; cbn [length]; lia).
    rewrite poke_ok by (cbn [length]; lia). cbn [obind w_len w_pos w_buf]. eexists. split; [reflexivity|].
    match goal with |- length (_ ++ ?x ++ _) = _ => fold (put_at b4 (Z.to_nat 75) x); rewrite (put_at_length b4 (Z.to_nat 75) x); cbn [length]; lia end. }
  destruct Q as (b3 & -> & LB3). cbn [obind].
  apply send_with_timeout_ok; [exact C| |].
  - apply set_ok; [exact N1|]. destruct S1 as (I1 & I2 & I3 & I4 & I5 & I6). unfold sess_ok, out_ok.
    cbn [s_in s_out s_in_len s_in_frag s_out_len s_out_frag s_sent_pos s_send_len s_counter with_resend with_out with_socket].
    split; [exact I1|]. split; [lia|]. split; [exact I3|]. split; [exact I4|]. split; [|unfold number_of_resends; lia].
    split; [unfold total; lia|]. left. split; [reflexivity|]. split; [reflexivity|]. split; [lia|exact SD2].
  - right. left. rewrite sess_at_set_same by exact L1. reflexivity.
Qed.
