(** C128: release and DControl requests. *)
From Coq Require Import List ZArith Arith Bool Lia.
From Verif Require Import Base CpmModel CpmProps PpmModel PpmProps BlockModel BlockReadLemmas BlockWriteProps AlarmParse ConnRspModel ConnRspProps ControlModel.
Import ListNotations.
Local Open Scope Z_scope.

(** * Specification *)

(** The control block that starts at [q] (IEC 61158-6-10): type, length and version, two bytes of padding,
    the UUID of the connection, session key, alarm sequence number, command and properties. *)
Definition block_at (b : list Z) (q : Z) : Z * control :=
  (at16 b q,
   mkControl (mkUuid (at32 b (q + 8)) (at16 b (q + 12)) (at16 b (q + 14)) (firstn 8 (skipn (Z.to_nat (q + 16)) b)))
     (at16 b (q + 24)) (at16 b (q + 28)) (at16 b (q + 30)) (at16 b (q + 26))).

(** Bytes [i] to the end are one control block with a length that is not too large. *)
Definition one_block (b : list Z) (i : Z) (tk : Z * control) : Prop :=
  Z.of_nat (length b) = i + 32 /\ at16 b (i + 2) <= 28 /\ tk = block_at b i.

(** What the controller reads: status, length, maximum, offset, count and, if something is there, a control
    block. *)
Record reply := mkReply { a_status : pnio; a_args : Z; a_max : Z; a_offset : Z; a_count : Z; a_block : option (Z * control) }.
Definition get_reply : reader reply :=
  rdo s <- get_pnio_status; rdo n <- get_u32; rdo m <- get_u32; rdo o <- get_u32; rdo c <- get_u32;
  if c =? 0 then rret (mkReply s n m o c None)
  else rdo x <- get_block (get_control (repeat 0 8)); rret (mkReply s n m o c (Some (b_type (fst x), snd x))).

(** The bytes between the positions of [w] and [w'] are read as [v]; nothing else is changed. *)
Definition replied (w w' : wr) (v : reply) : Prop := exists b bs, w_buf w = Some b /\ dec true true get_reply bs v /\
  w' = mkWr (Some (put_at b (Z.to_nat (w_pos w)) bs)) (w_len w) (w_pos w + Z.of_nat (length bs)).

Definition positive (st : pnio) (d : ndr) (ty : Z) (k : control) : reply :=
  mkReply st 32 (d_max d) (d_offset d) 32 (Some (ty, mkControl (k_uuid k) (k_session k) 8 (k_props k) (k_alarmseq k))).
Definition negative (st : pnio) (d : ndr) : reply := mkReply st 0 (d_max d) (d_offset d) 0 None.

(** A buffer with room for [n] more bytes. *)
Definition room_for (n : Z) (w : wr) : Prop := exists b, w_buf w = Some b /\ 0 <= w_pos w /\ w_pos w + n <= w_len w /\ w_len w <= Z.of_nat (length b) /\ w_len w < 65536.

(** * The response *)

Lemma done_ok : forall k, control_ok k -> control_ok (done k).
Proof. intros k (A & B & C & D & E). unfold control_ok, done. cbn. repeat split; try apply A; try lia. Qed.
Lemma done_done : forall k, done (done k) = done k. Proof. reflexivity. Qed.

Definition ectl (k : control) : list Z := [0] ++ [0] ++ euuid true (k_uuid k) ++ e16 true (k_session k) ++ e16 true (k_alarmseq k) ++ e16 true (k_command k) ++ e16 true (k_props k).
Lemma ectl_length : forall k, control_ok k -> length (ectl k) = 26%nat.
Proof. intros k (U & _). unfold ectl. rewrite !app_length, euuid_length, !e16_length by exact U. reflexivity. Qed.
Lemma eblock_length : forall ty bs, length (eblock true ty bs) = (6 + length bs)%nat.
Proof. intros. unfold eblock. rewrite !app_length, !e16_length. reflexivity. Qed.
Lemma enc_control : forall ty k, 0 <= ty < 65536 -> control_ok k -> enc (put_control true ty k) (eblock true ty (ectl k)).
Proof.
  intros ty k T K. pose proof (ectl_length k K) as L. destruct K as (U & S1 & C & P & Q). unfold put_control. apply enc_block; [exact T|lia|].
  apply enc_seq; [apply enc_byte; unfold byte; lia|]. apply enc_seq; [apply enc_byte; unfold byte; lia|].
  apply enc_seq; [apply enc_uuid; exact U|]. apply enc_seq; [apply enc_u16; exact S1|].
  apply enc_seq; [apply enc_u16; exact Q|]. apply enc_seq; [apply enc_u16; exact C|]. apply enc_u16; exact P.
Qed.
Lemma dec_control : forall k, control_ok k -> dec true true (get_control (repeat 0 8)) (ectl k) k.
Proof.
  intros k (U & S1 & C & P & Q). unfold get_control, ectl. rewrite app_assoc. change ([0] ++ [0]) with (e16 true 0).
  eapply dec_bind; [apply dec_u16; lia|]. eapply dec_bind; [apply dec_uuid; [exact U|reflexivity]|].
  eapply dec_bind; [apply dec_u16; exact S1|]. eapply dec_bind; [apply dec_u16; exact Q|].
  eapply dec_bind; [apply dec_u16; exact C|]. eapply dec_last; [apply dec_u16; exact P|].
  destruct k; reflexivity.
Qed.

Definition est (s : pnio) : list Z := [p_code s; p_decode s; p_code1 s; p_code2 s].
Definition ebody (st : pnio) (ty : Z) (k : control) : list Z := if p_code st =? 0 then eblock true ty (ectl (done k)) else [].
Definition ersp (e st : pnio) (d : ndr) (ty : Z) (k : control) : list Z :=
  let n := Z.of_nat (length (ebody st ty k)) in est e ++ endr true (mkNdr n (d_max d) (d_offset d) n) ++ ebody st ty k.
Lemma ebody_length : forall st ty k, (p_code st = 0 -> control_ok k) -> length (ebody st ty k) = if p_code st =? 0 then 32%nat else 0%nat.
Proof. intros st ty k K. unfold ebody. destruct (Z.eqb_spec (p_code st) 0) as [E|E]; [|reflexivity]. rewrite eblock_length, ectl_length by (apply done_ok; exact (K E)). reflexivity. Qed.
Lemma ersp_length : forall e st d ty k, (p_code st = 0 -> control_ok k) -> length (ersp e st d ty k) = if p_code st =? 0 then 52%nat else 20%nat.
Proof. intros e st d ty k K. unfold ersp. rewrite !app_length, endr_length, ebody_length by exact K. destruct (p_code st =? 0); reflexivity. Qed.

Lemma rsp_writes : forall st d ty k b len pos, pnio_ok st -> ndr_ok d -> 0 <= ty < 65536 -> (p_code st = 0 -> control_ok k) ->
  let n := Z.of_nat (length (ebody st ty k)) in
  0 <= pos -> pos + 20 + n <= len -> len <= Z.of_nat (length b) -> len < 65536 ->
  control_rsp true ty st d k (mkWr (Some b) len pos) =
  Ok (mkNdr n (d_max d) (d_offset d) n, (if p_code st =? 0 then done k else k), mkWr (Some (put_at b (Z.to_nat pos) (ersp st st d ty k))) len (pos + 20 + n)).
Proof.
  intros st d ty k b len pos S1 D T K n P Ln M N. unfold ersp. fold n. set (E1 := est st) in *.
  set (d' := mkNdr n (d_max d) (d_offset d) n) in *.
  assert (Nn : 0 <= n <= 32) by (subst n; rewrite ebody_length by exact K; destruct (p_code st =? 0); cbn; lia).
  assert (D' : ndr_ok d') by (destruct D as (_ & D1 & D2 & _); unfold ndr_ok, u32_ok; cbn; unfold u32_ok in *; lia).
  assert (L1 : length E1 = 4%nat) by reflexivity. unfold control_rsp.
  assert (X1 : enc (put_pnet_status true st) E1) by (apply enc_pnio; exact S1). rewrite X1 by lia. cbn [obind].
  rewrite (enc_ndr true d D) by (rewrite ?endr_length, ?put_at_length; lia). cbn [obind].
  assert (LA : length (put_at b (Z.to_nat pos) E1) = length b) by (apply put_at_length; lia).
  assert (B : enc (if p_code st =? 0 then put_control true ty (if p_code st =? 0 then done k else k) else wskip) (ebody st ty k)).
  { unfold ebody. destruct (Z.eqb_spec (p_code st) 0) as [E|E]; [apply enc_control; [exact T|apply done_ok; exact (K E)]|exact enc_skip]. }
  set (bs := ebody st ty k) in *.
  rewrite B; [|lia|rewrite endr_length; lia|rewrite put_at_length by (rewrite ?endr_length; lia); lia|exact N]. cbn [obind w_pos w_buf w_len].
  replace (pos + Z.of_nat (length E1) + Z.of_nat (length (endr true d)) + Z.of_nat (length bs) - (pos + Z.of_nat (length E1) + Z.of_nat (length (endr true d)))) with n by lia.
  rewrite u32_id by lia. fold d'.
  replace (Z.to_nat (pos + Z.of_nat (length E1) + Z.of_nat (length (endr true d)))) with (Z.to_nat pos + length (E1 ++ endr true d))%nat by (rewrite app_length; lia).
  replace (Z.to_nat (pos + Z.of_nat (length E1))) with (Z.to_nat pos + length E1)%nat by lia.
  rewrite put_at_app by (rewrite ?endr_length; lia). rewrite put_at_app by (rewrite app_length, endr_length; lia). rewrite <- app_assoc.
  rewrite (enc_ndr true d' D') by (rewrite ?endr_length, ?put_at_length; rewrite ?app_length, ?endr_length; lia).
  cbn [obind w_buf w_len]. replace (Z.to_nat (pos + Z.of_nat (length E1))) with (Z.to_nat pos + length E1)%nat by lia.
  rewrite put_at_over by (rewrite ?app_length, ?endr_length; lia). f_equal. f_equal. f_equal. rewrite !endr_length. lia.
Qed.

Lemma dec_reply : forall e st d ty k, ndr_ok d -> 0 <= ty < 65536 -> (p_code st = 0 -> control_ok k) ->
  dec true true get_reply (ersp e st d ty k) (if p_code st =? 0 then positive e d ty k else negative e d).
Proof.
  intros e st d ty k (_ & D2 & D3 & _) T K. unfold ersp. pose proof (ebody_length st ty k K) as L.
  set (n := Z.of_nat (length (ebody st ty k))). assert (Nn : 0 <= n < 4294967296) by (subst n; rewrite L; destruct (p_code st =? 0); cbn; lia).
  assert (En : n = if p_code st =? 0 then 32 else 0) by (subst n; rewrite L; destruct (p_code st =? 0); reflexivity). clearbody n.
  unfold get_reply, endr, u32_ok in *. cbn [d_args d_max d_offset d_count]. rewrite <- !app_assoc.
  apply (dec_bind _ _ true true true _ _ _ _ _ _ (dec_pnio true e)). repeat (eapply dec_bind; [apply dec_u32; assumption|]).
  unfold ebody. rewrite En. destruct (Z.eqb_spec (p_code st) 0) as [E|E]; [|apply dec_ret]. cbn [Z.eqb].
  pose proof (done_ok k (K E)) as K'. pose proof (ectl_length _ K') as LL.
  eapply dec_last; [apply (dec_block _ true true); [exact T|lia|apply dec_control; exact K']|]. reflexivity.
Qed.

Lemma over_status : forall b p e st d ty k e', (p + length (ersp e st d ty k) <= length b)%nat ->
  put_at (put_at b p (ersp e st d ty k)) p (est e') = put_at b p (ersp e' st d ty k).
Proof.
  intros b p e st d ty k e' H. unfold ersp in *.
  pose proof (put_at_over b p [] (est e) (est e') (endr true (mkNdr (Z.of_nat (length (ebody st ty k))) (d_max d) (d_offset d) (Z.of_nat (length (ebody st ty k)))) ++ ebody st ty k) eq_refl H) as Q.
  cbn [app length] in Q. rewrite Nat.add_0_r in Q. exact Q.
Qed.
Lemma over_all : forall b p x y, length x = length y -> (p + length x <= length b)%nat -> put_at (put_at b p x) p y = put_at b p y.
Proof.
  intros b p x y L H. pose proof (put_at_over b p [] x y [] (eq_sym L)) as Q. cbn [app length] in Q. rewrite !app_nil_r, Nat.add_0_r in Q. apply Q. exact H.
Qed.

(** * Reading the request *)

Section Req.
Variable b : list Z.
Hypothesis bytes : Forall byte b.
Hypothesis small : Z.of_nat (length b) < 65536.
Let len := Z.of_nat (length b).

Lemma ex_uuid4 : exactly b 8 (fun i => firstn 8 (skipn (Z.to_nat i) b)) (get_mem_into 8 (repeat 0 8) 8).
Proof.
  unfold get_mem_into, get_mem. repeat split.
  - intros i I L. cbn [rdr r_res is_ok negb r_len r_pos r_buf]. destruct (Z.ltb_spec (Z.of_nat (length b)) (i + 8)); [lia|].
    unfold slice. destruct (Z.leb_spec 0 i); [|lia]. destruct (Z.leb_spec 0 8); [|lia]. destruct (Z.leb_spec (i + 8) (Z.of_nat (length b))); [|lia].
    cbn [andb obind]. change (8 <? 8) with false. cbv iota. unfold set_pos. cbn [rdr r_buf r_len r_be r_res]. rewrite u16_id by lia.
    change (skipn (Z.to_nat 8) (repeat 0 8)) with (@nil Z). rewrite app_nil_r. reflexivity.
  - intros i I _ L. cbn [rdr r_res is_ok negb r_len r_pos r_buf]. destruct (Z.ltb_spec (Z.of_nat (length b)) (i + 8)); [|lia]. cbn [obind].
    eexists _, _. split; [reflexivity|split; cbn; congruence].
  - intros r (F1 & F2). destruct (r_res r) eqn:E; try congruence; cbn; (eexists _, _; split; [reflexivity|split; congruence]).
Qed.

Ltac exs := first [apply ex_ret | eapply ex_bind; cycle 2; [first [apply ex_u16; assumption|apply ex_u32; assumption|apply ex_byte; assumption|apply ex_uuid4]|intros ?; exs|lia|lia]].
Ltac norm := repeat match goal with |- context [?i + ?a + ?c] =>
  match a with Zpos _ => match c with Zpos _ =>
    let v := eval vm_compute in (a + c) in replace (i + a + c) with (i + v) by lia end end end.

Lemma ex_uuid : exactly b 16 (fun i => mkUuid (at32 b i) (at16 b (i + 4)) (at16 b (i + 6)) (firstn 8 (skipn (Z.to_nat (i + 8)) b))) (get_uuid (repeat 0 8)).
Proof. unfold get_uuid. eapply ex_eq; [exs|reflexivity|]. intros i _ _. cbv beta. norm. reflexivity. Qed.
Lemma ex_control : exactly b 26 (fun i => snd (block_at b (i - 6))) (get_control (repeat 0 8)).
Proof.
  unfold get_control. eapply ex_eq.
  - eapply ex_bind; cycle 2; [apply ex_u16; assumption|intros ?; eapply ex_bind; cycle 2; [apply ex_uuid|intros ?; exs|lia|lia]|lia|lia].
  - reflexivity.
  - intros i _ _. cbv beta. cbn [block_at snd]. norm.
    replace (i - 6 + 8) with (i + 2) by lia. replace (i - 6 + 12) with (i + 6) by lia. replace (i - 6 + 14) with (i + 8) by lia. replace (i - 6 + 16) with (i + 10) by lia.
    replace (i - 6 + 24) with (i + 18) by lia. replace (i - 6 + 28) with (i + 22) by lia. replace (i - 6 + 30) with (i + 24) by lia. replace (i - 6 + 26) with (i + 20) by lia. reflexivity.
Qed.

Lemma blocks_S : forall n types bad tk r, blocks (S n) types bad tk r =
  if (r_pos r + 6 <=? r_len r) && is_ok (r_res r) then
    (rdo h <- get_block_header; fun r1 =>
       if (r_pos r1 + b_length h + 4 - 6 <=? r_len r1) && is_ok (r_res r1) then
         if existsb (Z.eqb (b_type h)) types then (rdo k <- get_control (repeat 0 8); blocks n types bad (b_type h, k)) r1
         else blocks n types true tk r1
       else blocks n types bad tk r1) r
  else Ok ((bad, tk), r).
Proof. reflexivity. Qed.
Lemma blocks_failed : forall n types bad tk r, failed b r -> blocks (S n) types bad tk r = Ok ((bad, tk), r).
Proof. intros n types bad tk r (F1 & F2). cbn [blocks]. destruct (r_res r); [congruence|rewrite andb_false_r; reflexivity..]. Qed.

(** Where the blocks of [types] stand that the device looks at. *)
Definition found (types : list Z) (p : Z) (tk : Z * control) : Prop :=
  exists q, p <= q /\ q + 32 <= len /\ q + at16 b (q + 2) + 4 <= len /\ In (at16 b q) types /\ tk = block_at b q.

Lemma blocks_read : forall n types bad tk p, 0 <= p <= len -> (Z.to_nat (len - p) < n)%nat ->
  exists bad' tk' r', blocks n types bad tk (rdr b p) = Ok ((bad', tk'), r') /\ (bad = true -> bad' = true) /\
    (failed b r' \/ exists p', r' = rdr b p' /\ p <= p' <= len) /\
    (bad' = false -> r' = rdr b len -> exists a c, 0 <= a /\ 0 <= c /\ len - p = 6 * a + 32 * c /\ (c = 0 -> tk' = tk) /\ (0 < c -> found types p tk')).
Proof.
  induction n as [|n IH]; intros types bad tk p P F; [lia|]. destruct n as [|n].
  { assert (p = len) as -> by lia. exists bad, tk, (rdr b len). cbn [blocks rdr r_pos r_len]. fold len.
    destruct (Z.leb_spec (len + 6) len); [lia|]. cbn [andb]. split; [reflexivity|]. split; [auto|]. split; [right; exists len; split; [reflexivity|lia]|].
    intros _ _. exists 0, 0. repeat split; try lia. }
  rewrite blocks_S. cbn [rdr r_pos r_len r_res is_ok]. fold len. destruct (Z.leb_spec (p + 6) len) as [H|H]; cbn [andb].
  2:{ exists bad, tk, (rdr b p). split; [reflexivity|]. split; [auto|]. split; [right; exists p; split; [reflexivity|lia]|].
      intros _ E. apply (f_equal r_pos) in E. cbn [rdr r_pos] in E. exists 0, 0. repeat split; try lia. }
  destruct (ex_header b bytes small) as (H1 & _). unfold rbind at 1. fold (rdr b p). rewrite H1 by (fold len; lia). cbn [obind header_at b_type b_length].
  cbn [rdr r_pos r_len r_res is_ok]. fold len. rewrite andb_true_r. fold (rdr b (p + 6)).
  assert (IHp : forall bad0 tk0, exists bad' tk' r', blocks (S n) types bad0 tk0 (rdr b (p + 6)) = Ok ((bad', tk'), r') /\ (bad0 = true -> bad' = true) /\
    (failed b r' \/ exists p', r' = rdr b p' /\ p + 6 <= p' <= len) /\
    (bad' = false -> r' = rdr b len -> exists a c, 0 <= a /\ 0 <= c /\ len - (p + 6) = 6 * a + 32 * c /\ (c = 0 -> tk' = tk0) /\ (0 < c -> found types (p + 6) tk')))
    by (intros bad0 tk0; apply IH; lia).
  assert (W : forall bad0, (bad = true -> bad0 = true) -> (exists bad' tk' r', blocks (S n) types bad0 tk (rdr b (p + 6)) = Ok ((bad', tk'), r') /\ (bad = true -> bad' = true) /\
    (failed b r' \/ exists p', r' = rdr b p' /\ p <= p' <= len) /\
    (bad' = false -> r' = rdr b len -> exists a c, 0 <= a /\ 0 <= c /\ len - p = 6 * a + 32 * c /\ (c = 0 -> tk' = tk) /\ (0 < c -> found types p tk')))).
  { intros bad0 B0. destruct (IHp bad0 tk) as (x & y & z & A1 & A2 & A3 & A4). exists x, y, z. split; [exact A1|]. split; [auto|]. split.
    - destruct A3 as [A3|(p' & A3 & A5)]; [left; exact A3|right; exists p'; split; [exact A3|lia]].
    - intros X1 X2. destruct (A4 X1 X2) as (a & c & C1 & C2 & C3 & C4 & C5). exists (a + 1), c. repeat split; try lia; [exact C4|].
      intros C6. destruct (C5 C6) as (q & Q1 & Q2). exists q. split; [lia|exact Q2]. }
  destruct (Z.leb_spec (p + 6 + at16 b (p + 2) + 4 - 6) len) as [G|G]; [|apply W; auto].
  destruct (existsb (Z.eqb (at16 b p)) types) eqn:X; [|apply W; auto]. clear W.
  assert (I : In (at16 b p) types) by (apply existsb_exists in X; destruct X as (x & X1 & X2); apply Z.eqb_eq in X2; subst x; exact X1).
  unfold rbind. destruct (failed_fixed _ b 26 _ _ (p + 6) ex_control ltac:(lia) ltac:(lia)) as [(J1 & J2)|(J1 & v & r & J2 & J3)]; rewrite J2; cbn [obind].
  2:{ rewrite (blocks_failed _ _ _ _ _ J3). exists bad, (at16 b p, v), r. split; [reflexivity|]. split; [auto|]. split; [left; exact J3|].
      intros _ ->. destruct J3 as (_ & J3). cbn in J3. congruence. }
  fold len in J1. replace (p + 6 - 6) with p by lia. change (at16 b p, snd (block_at b p)) with (block_at b p).
  destruct (IH types bad (block_at b p) (p + 6 + 26) ltac:(lia) ltac:(lia)) as (x & y & z & A1 & A2 & A3 & A4).
  exists x, y, z. split; [exact A1|]. split; [exact A2|]. split.
  - destruct A3 as [A3|(p' & A3 & A5)]; [left; exact A3|right; exists p'; split; [exact A3|lia]].
  - intros X1 X2. destruct (A4 X1 X2) as (a & c & C1 & C2 & C3 & C4 & C5). exists a, (c + 1). repeat split; try lia.
    intros _. destruct (Z.eq_dec c 0) as [C0|C0].
    + exists p. rewrite (C4 C0). repeat split; try lia. exact I.
    + destruct (C5 ltac:(lia)) as (q & Q1 & Q2). exists q. split; [lia|exact Q2].
Qed.

Lemma blocks_one : forall n types tk p, 0 <= p -> (1 < n)%nat -> len = p + 32 -> at16 b (p + 2) <= 28 -> In (at16 b p) types ->
  blocks n types false tk (rdr b p) = Ok ((false, block_at b p), rdr b len).
Proof.
  intros n types tk p P N L K I. destruct n as [|[|n]]; try lia.
  rewrite blocks_S. cbn [rdr r_pos r_len r_res is_ok]. fold len. destruct (Z.leb_spec (p + 6) len); [|lia]. cbn [andb].
  destruct (ex_header b bytes small) as (H1 & _). unfold rbind at 1. fold (rdr b p). rewrite H1 by (fold len; lia). cbn [obind header_at b_type b_length].
  cbn [rdr r_pos r_len r_res is_ok]. fold len. rewrite andb_true_r. fold (rdr b (p + 6)).
  destruct (Z.leb_spec (p + 6 + at16 b (p + 2) + 4 - 6) len); [|lia].
  assert (X : existsb (Z.eqb (at16 b p)) types = true) by (apply existsb_exists; exists (at16 b p); split; [exact I|apply Z.eqb_refl]). rewrite X.
  unfold rbind. destruct ex_control as (E1 & _). rewrite E1 by (fold len; lia). cbn [obind]. replace (p + 6 - 6) with p by lia. change (at16 b p, snd (block_at b p)) with (block_at b p).
  replace (p + 6 + 26) with len by lia. change (blocks (S n) types false (block_at b p) (rdr b len) = Ok (false, block_at b p, rdr b len)).
  rewrite blocks_S. cbn [rdr r_pos r_len r_res is_ok]. fold len. destruct (Z.leb_spec (len + 6) len); [lia|]. reflexivity.
Qed.

Lemma interpret_read : forall f n args tk p, 0 <= p <= len -> (Z.to_nat (len - p) < n)%nat ->
  exists v tk', interpret f n args tk (rdr b p) = Ok (v, tk') /\
    (forall e, v = Some e -> e = f_unknown f \/ e = f_length f \/ e = f_wrong f) /\
    (v = None -> args = len - p /\ k_command (snd tk') = f_command f /\ exists a c, 0 <= a /\ 0 <= c /\ len - p = 6 * a + 32 * c /\ (c = 0 -> tk' = tk) /\ (0 < c -> found (f_types f) p tk')).
Proof.
  intros f n args tk p P F. destruct (blocks_read n (f_types f) false tk p P F) as (bad & tk' & r' & E & _ & R & A). unfold interpret. rewrite E. cbn [obind].
  eexists _, tk'. split; [reflexivity|]. destruct bad.
  { split; [intros e [= <-]; auto|discriminate]. }
  destruct R as [(R1 & R2)|(p' & -> & Pp)].
  { replace (is_ok (r_res r')) with false by (destruct (r_res r'); [congruence|reflexivity..]). split; [intros e [= <-]; auto|discriminate]. }
  cbn [rdr r_res is_ok r_pos r_len]. fold len. destruct (Z.eqb_spec p' len) as [->|Hp]; cbn [negb]; [|split; [intros e [= <-]; auto|discriminate]].
  rewrite u32_id by (unfold len in *; lia). destruct (Z.eqb_spec (len - p) args) as [<-|]; cbn [negb]; [|split; [intros e [= <-]; auto|discriminate]].
  destruct (Z.eqb_spec (k_command (snd tk')) (f_command f)) as [C|]; cbn [negb]; [|split; [intros e [= <-]; auto|discriminate]].
  split; [discriminate|]. intros _. split; [reflexivity|]. split; [exact C|]. exact (A eq_refl eq_refl).
Qed.

Lemma interpret_one : forall f n tk p, 0 <= p -> (1 < n)%nat -> len = p + 32 -> at16 b (p + 2) <= 28 -> In (at16 b p) (f_types f) -> at16 b (p + 28) = f_command f ->
  interpret f n 32 tk (rdr b p) = Ok (None, block_at b p).
Proof.
  intros f n tk p P N L K I C. unfold interpret. rewrite (blocks_one n (f_types f) tk p P N L K I). cbn [obind rdr r_res is_ok r_pos r_len]. fold len.
  rewrite Z.eqb_refl. cbn [negb]. replace (len - p) with 32 by lia. cbn [u32 Z.eqb negb]. change (u32 32 =? 32) with true. cbn [negb block_at snd k_command]. rewrite C, Z.eqb_refl. reflexivity.
Qed.
Lemma block_ok : forall q, 0 <= q -> q + 32 <= len -> control_ok (snd (block_at b q)).
Proof.
  intros q Q L. cbn [block_at snd]. unfold control_ok, uuid_ok. cbn [k_uuid k_session k_command k_props k_alarmseq u_d1 u_d2 u_d3 u_d4].
  pose proof (at16_range b bytes). repeat split; try apply H; unfold at32; try (pose proof (H (q + 8)); pose proof (H (q + 8 + 2)); lia).
  rewrite firstn_length, skipn_length. unfold len in *. lia.
Qed.
End Req.

Lemma control0_ok : control_ok control0.
Proof. unfold control_ok, uuid_ok. cbn. repeat split; lia. Qed.
Lemma kind_codes : forall f e, f = release_kind \/ f = dcontrol_kind -> e = f_unknown f \/ e = f_length f \/ e = f_wrong f ->
  pnio_ok e /\ p_code e <> 0 /\ (f = dcontrol_kind -> p_code e = 221).
Proof. intros f e [-> | ->] [-> |[-> | ->]]; cbn; unfold pnio_ok, byte; cbn; repeat split; intros; try lia; try discriminate; reflexivity. Qed.

(** * Release *)

(** C128: exactly the requests that are one release block with the release command, for a known connection,
    release it.  It is told the status, the numbers of its block, and that the command is done; all others
    are told an error status. *)
Theorem C128_release : forall known after fuel st d b i w, Forall byte b -> Z.of_nat (length b) < 65536 -> 0 <= i <= Z.of_nat (length b) -> (length b < fuel)%nat ->
  p_code st = 0 -> pnio_ok st -> pnio_ok after -> ndr_ok d -> room_for 52 w ->
  exists o w', release_ind true known after fuel st d (rdr b i) w = Ok (o, w') /\
    (forall k, o = Some k <-> one_block b i (276, k) /\ k_command k = 4 /\ known (k_uuid k) = true) /\
    match o with
    | Some k => replied w w' (positive after d 33044 k)
    | None => exists e, p_code e <> 0 /\ replied w w' (positive e d 33044 control0)
    end.
Proof.
  intros known after fuel st d b i w B S0 I F C0 S1 A D (wb & W1 & W2 & W3 & W4 & W5). destruct w as [wbuf wlen wpos]. cbn [w_buf w_pos w_len] in *. subst wbuf.
  pose proof (fun ty k K => ebody_length st ty k K) as EL. rewrite C0 in EL. cbn [Z.eqb] in EL.
  unfold release_ind. cbn [w_pos].
  rewrite (rsp_writes st d 33044 control0 wb wlen wpos S1 D ltac:(lia) (fun _ => control0_ok) W2) by (rewrite ?EL by (intros _; exact control0_ok); lia).
  rewrite EL by (intros _; exact control0_ok). change (Z.of_nat 32) with 32. rewrite C0. cbn [Z.eqb obind negb w_buf w_len w_pos d_args].
  set (d1 := mkNdr 32 (d_max d) (d_offset d) 32).
  assert (D1 : ndr_ok d1) by (destruct D as (_ & X & Y & _); unfold ndr_ok, u32_ok in *; cbn; lia).
  assert (LL : forall e k, control_ok k -> length (ersp e st d 33044 k) = 52%nat) by (intros e k K; rewrite ersp_length by auto; rewrite C0; reflexivity).
  assert (Dd : forall e k, ersp e st d1 33044 k = ersp e st d 33044 k) by reflexivity.
  assert (FIN : forall o e k, pnio_ok e -> control_ok k ->
    exists o0 w', (do w3 <- put_pnet_status true e (mkWr (Some (put_at wb (Z.to_nat wpos) (ersp st st d 33044 k))) wlen wpos); Ok (o, mkWr (w_buf w3) (w_len w3) (wpos + 20 + 32))) = Ok (o0, w') /\
      o0 = (o : option control) /\ replied (mkWr (Some wb) wlen wpos) w' (positive e d 33044 k)).
  { intros o e k E K. assert (X1 : enc (put_pnet_status true e) (est e)) by (apply enc_pnio; exact E).
    rewrite X1; [|lia|cbn [est length]; lia|rewrite put_at_length by (rewrite LL by exact K; lia); lia|exact W5]. cbn [obind w_buf w_len].
    eexists _, _. split; [reflexivity|]. split; [reflexivity|]. exists wb, (ersp e st d 33044 k). split; [reflexivity|]. split.
    - pose proof (dec_reply e st d 33044 k D ltac:(lia) (fun _ => K)) as Q. rewrite C0 in Q. exact Q.
    - cbn [w_pos w_len]. rewrite over_status by (rewrite LL by exact K; lia). rewrite LL by exact K. f_equal. lia. }
  destruct (interpret_read b B S0 release_kind fuel 32 (0, done control0) i I ltac:(lia)) as (v & tk & EI & V1 & V2). rewrite EI. cbn [obind].
  assert (ONE : forall k, one_block b i (276, k) -> k_command k = 4 -> v = None /\ snd tk = k).
  { intros k (O1 & O2 & O3) O4. unfold block_at in O3. injection O3 as O5 O6.
    assert (Q4 : at16 b (i + 28) = 4) by (rewrite O6 in O4; exact O4).
    rewrite (interpret_one b B S0 release_kind fuel (0, done control0) i ltac:(lia) ltac:(lia) O1 O2 (or_introl O5) Q4) in EI.
    injection EI as <- <-. split; [reflexivity|]. cbn [block_at snd]. symmetry. exact O6. }
  destruct v as [e|].
  { destruct (kind_codes _ e (or_introl eq_refl) (V1 e eq_refl)) as (P1 & P2 & _). cbn [obind]. destruct (FIN None e control0 P1 control0_ok) as (o0 & w' & E1 & -> & E3).
    eexists None, w'. split; [exact E1|]. split; [|exists e; split; assumption]. intros k. split; [discriminate|]. intros (O1 & O2 & _). destruct (ONE k O1 O2) as (? & _). discriminate. }
  destruct (V2 eq_refl) as (Ha & Hc & a & c & A1 & A2 & A3 & A4 & A5). cbn [release_kind f_command f_types] in *.
  assert (c = 1) as -> by lia. destruct (A5 ltac:(lia)) as (q & Q1 & Q2 & Q3 & [Q4|[]] & Q5). assert (q = i) as -> by lia.
  destruct tk as [ty k]. cbn [snd] in *. pose proof (block_ok b B i ltac:(lia) ltac:(lia)) as KO. rewrite <- Q5 in KO. cbn [snd] in KO.
  assert (OB : one_block b i (276, k)).
  { split; [lia|]. split; [lia|]. change (block_at b i) with (at16 b i, snd (block_at b i)). rewrite <- Q4, <- Q5. reflexivity. }
  destruct (known (k_uuid k)) eqn:KN.
  - rewrite (rsp_writes st d1 33044 k (put_at wb (Z.to_nat wpos) (ersp st st d 33044 control0)) wlen wpos S1 D1 ltac:(lia) (fun _ => KO) W2);
      [|rewrite EL by auto; lia|rewrite put_at_length by (rewrite LL by exact control0_ok; lia); lia|exact W5].
    cbn [obind snd w_buf w_len]. rewrite Dd, over_all by (rewrite ?LL by (exact control0_ok || exact KO); lia).
    destruct (FIN (Some k) after k A KO) as (o0 & w' & E1 & -> & E3). exists (Some k), w'. split; [exact E1|]. split; [|exact E3].
    intros k'. split; [intros [= <-]; repeat split; try assumption; try apply OB|]. intros (O1 & O2 & _). destruct (ONE k' O1 O2) as (_ & ->). reflexivity.
  - cbn [obind]. destruct (FIN None (mkPnio 220 129 64 5) control0) as (o0 & w' & E1 & -> & E3); [unfold pnio_ok, byte; cbn; lia|exact control0_ok|].
    exists None, w'. split; [exact E1|]. split; [|eexists; split; [|exact E3]; cbn; lia].
    intros k'. split; [discriminate|]. intros (O1 & O2 & O3). destruct (ONE k' O1 O2) as (_ & <-). congruence.
Qed.
Print Assumptions C128_release.

(** * DControl *)

(** C128: what a DControl request that is one block is answered with: [e], and the block only if [e] is no
    error. *)
Definition dreply (e : pnio) (d : ndr) (ty : Z) (k : control) : reply :=
  if p_code e =? 0 then positive e d (if ty =? 273 then 33041 else 33040) k else negative e d.

(** C128: every DControl request is answered inside the room for it.  Something is handed on only from a
    block of the request, with the right command, for a known connection, and not if the sequence number is
    that of the request before. *)
Theorem C128_dcontrol : forall known act fuel s seq d b i w, Forall byte b -> Z.of_nat (length b) < 65536 -> 0 <= i <= Z.of_nat (length b) -> (length b < fuel)%nat ->
  (forall ty k, pnio_ok (act ty k)) -> pnio_ok (s_res s) -> ndr_ok d -> room_for 52 w ->
  exists o s' w', dcontrol_ind true known act fuel s seq d (rdr b i) w = Ok (o, s', w') /\
    (forall ty k, o = Some (ty, k) -> s_seq s <> seq /\ known (k_uuid k) = true /\ k_command k = 1 /\ d_args d = Z.of_nat (length b) - i /\
       found b [280; 272; 273] i (ty, k) /\ s' = mkDsess seq (act ty k) /\ replied w w' (dreply (act ty k) d ty k)) /\
    (o = None -> s_seq s <> seq -> exists e, p_code e = 221 /\ replied w w' (negative e d)) /\
    (s_seq s = seq -> o = None /\ s' = s) /\
    (forall ty k, one_block b i (ty, k) -> In ty [280; 272; 273] -> k_command k = 1 -> d_args d = 32 ->
       if s_seq s =? seq then replied w w' (dreply (s_res s) d ty k) else o = if known (k_uuid k) then Some (ty, k) else None).
Proof.
  intros known act fuel s seq d b i w B S0 I F A R D (wb & W1 & W2 & W3 & W4 & W5). destruct w as [wbuf wlen wpos]. cbn [w_buf w_pos w_len] in *. subst wbuf.
  unfold dcontrol_ind. destruct (interpret_read b B S0 dcontrol_kind fuel (d_args d) (0, control0) i I ltac:(lia)) as (v & [ty k] & EI & V1 & V2). rewrite EI. cbn [obind].
  set (rt := if ty =? 273 then 33041 else 33040). assert (RT : 0 <= rt < 65536) by (subst rt; destruct (ty =? 273); lia).
  assert (FIN : forall e, pnio_ok e -> (p_code e = 0 -> control_ok k) -> exists x, control_rsp true rt e d k (mkWr (Some wb) wlen wpos) = Ok x /\
    replied (mkWr (Some wb) wlen wpos) (snd x) (dreply e d ty k)).
  { intros e E K. pose proof (ebody_length e rt k K) as L. eexists. split; [apply rsp_writes; try assumption; rewrite L; destruct (p_code e =? 0); cbn; lia|].
    cbn [snd]. exists wb, (ersp e e d rt k). split; [reflexivity|]. split; [exact (dec_reply e e d rt k D RT K)|]. cbn [w_pos w_len].
    f_equal. unfold ersp. rewrite !app_length, endr_length. cbn [est length]. lia. }
  assert (NEG : forall e, p_code e = 221 -> dreply e d ty k = negative e d) by (intros e E; unfold dreply; rewrite E; reflexivity).
  assert (ONE : forall ty' k', one_block b i (ty', k') -> In ty' [280; 272; 273] -> k_command k' = 1 -> d_args d = 32 -> v = None /\ ty = ty' /\ k = k').
  { intros ty' k' (O1 & O2 & O3) O4 O7 O8. unfold block_at in O3. injection O3 as O5 O6.
    assert (Q4 : at16 b (i + 28) = 1) by (rewrite O6 in O7; exact O7). rewrite O8 in EI. rewrite O5 in O4.
    rewrite (interpret_one b B S0 dcontrol_kind fuel (0, control0) i ltac:(lia) ltac:(lia) O1 O2 O4 Q4) in EI.
    injection EI as <- <- <-. split; [reflexivity|]. split; symmetry; assumption. }
  destruct v as [e|].
  { destruct (kind_codes _ e (or_intror eq_refl) (V1 e eq_refl)) as (P1 & P2 & P3). destruct (FIN e P1 ltac:(intros; congruence)) as (x & X1 & X2). rewrite X1. cbn [obind].
    exists None, s, (snd x). split; [reflexivity|]. split; [discriminate|]. split.
    { intros _ _. exists e. split; [exact (P3 eq_refl)|]. rewrite <- (NEG e (P3 eq_refl)). exact X2. }
    split; [auto|]. intros ty' k' O1 O2 O3 O4. destruct (ONE ty' k' O1 O2 O3 O4) as (? & _). discriminate. }
  destruct (V2 eq_refl) as (Ha & Hc & a & c & A1 & A2 & A3 & A4 & A5). cbn [dcontrol_kind f_command f_types snd] in *.
  assert (Cp : 0 < c). { destruct (Z.eq_dec c 0) as [C0|C0]; [|lia]. pose proof (A4 C0) as E. injection E as _ E. rewrite E in Hc. discriminate. }
  pose proof (A5 Cp) as FO. assert (KO : control_ok k). { destruct FO as (q & Q1 & Q2 & _ & _ & Q5). pose proof (block_ok b B q ltac:(lia) Q2) as X. rewrite <- Q5 in X. exact X. }
  destruct (Z.eqb_spec (s_seq s) seq) as [SQ|SQ]; cbn [negb].
  - destruct (FIN (s_res s) R (fun _ => KO)) as (x & X1 & X2). rewrite X1. cbn [obind]. exists None, s, (snd x). split; [reflexivity|]. split; [discriminate|]. split; [congruence|].
    split; [auto|]. intros ty' k' O1 O2 O3 O4. destruct (ONE ty' k' O1 O2 O3 O4) as (_ & <- & <-). exact X2.
  - destruct (known (k_uuid k)) eqn:KN.
    + destruct (FIN (act ty k) (A ty k) (fun _ => KO)) as (x & X1 & X2). rewrite X1. cbn [obind]. eexists _, _, (snd x). split; [reflexivity|]. split.
      { intros ty' k' [= <- <-]. repeat split; try assumption. }
      split; [discriminate|]. split; [congruence|]. intros ty' k' O1 O2 O3 O4. destruct (ONE ty' k' O1 O2 O3 O4) as (_ & <- & <-). rewrite KN. reflexivity.
    + destruct (FIN (mkPnio 221 129 64 5)) as (x & X1 & X2); [unfold pnio_ok, byte; cbn; lia|intros; exact KO|]. rewrite X1. cbn [obind]. eexists _, _, (snd x). split; [reflexivity|].
      split; [discriminate|]. split; [intros _ _; eexists; split; [|exact X2]; reflexivity|]. split; [congruence|].
      intros ty' k' O1 O2 O3 O4. destruct (ONE ty' k' O1 O2 O3 O4) as (_ & <- & <-). rewrite KN. reflexivity.
Qed.
Print Assumptions C128_dcontrol.

(** C128: a DControl request that is sent again with the same sequence number is not handed on again, and
    gets the same answer. *)
Theorem C128_again : forall known act fuel s seq d b i w known' act' w2 ty k, Forall byte b -> Z.of_nat (length b) < 65536 -> 0 <= i -> (length b < fuel)%nat ->
  (forall ty k, pnio_ok (act ty k)) -> (forall ty k, pnio_ok (act' ty k)) -> pnio_ok (s_res s) -> ndr_ok d -> room_for 52 w -> room_for 52 w2 ->
  one_block b i (ty, k) -> In ty [280; 272; 273] -> k_command k = 1 -> d_args d = 32 -> known (k_uuid k) = true -> s_seq s <> seq ->
  exists s1 w' w2', dcontrol_ind true known act fuel s seq d (rdr b i) w = Ok (Some (ty, k), s1, w') /\ replied w w' (dreply (act ty k) d ty k) /\
    dcontrol_ind true known' act' fuel s1 seq d (rdr b i) w2 = Ok (None, s1, w2') /\ replied w2 w2' (dreply (act ty k) d ty k).
Proof.
  intros known act fuel s seq d b i w known' act' w2 ty k B S0 I F A A' R D W W2 O T C G K Q. assert (I' : 0 <= i <= Z.of_nat (length b)) by (destruct O; lia).
  destruct (C128_dcontrol known act fuel s seq d b i w B S0 I' F A R D W) as (o & s1 & w' & E & H1 & _ & _ & H4).
  pose proof (H4 ty k O T C G) as X. apply Z.eqb_neq in Q. rewrite Q, K in X. subst o. destruct (H1 ty k eq_refl) as (_ & _ & _ & _ & _ & -> & RP).
  destruct (C128_dcontrol known' act' fuel (mkDsess seq (act ty k)) seq d b i w2 B S0 I' F A' (A ty k) D W2) as (o2 & s2 & w2' & E2 & _ & _ & H3 & H5).
  destruct (H3 eq_refl) as (-> & ->). pose proof (H5 ty k O T C G) as X. cbn [s_seq s_res] in X. rewrite Z.eqb_refl in X.
  eexists _, w', w2'. split; [exact E|]. split; [exact RP|]. split; [exact E2|exact X].
Qed.
Print Assumptions C128_again.

(** * Any room *)

Definition kept (w w' : wr) : Prop := exists b b', w_buf w = Some b /\ w_buf w' = Some b' /\ w_len w' = w_len w /\ w_pos w <= w_pos w' <= w_len w /\ length b' = length b /\
  forall i, (i < Z.to_nat (w_pos w))%nat \/ (Z.to_nat (w_len w) <= i)%nat -> nth i b' 0 = nth i b 0.
Definition buffer (w : wr) : Prop := exists b, w_buf w = Some b /\ 0 <= w_pos w <= w_len w /\ w_len w <= Z.of_nat (length b) /\ w_len w < 65534.

Lemma rsp_inside : forall ty st d k w, buffer w -> exists d' k' w', control_rsp true ty st d k w = Ok (d', k', w') /\ kept w w'.
Proof.
  intros ty st d k [wb len pos] (b & E & P & L & N). cbn [w_buf w_pos w_len] in *. subst wb.
  assert (B : stays_inside (if p_code st =? 0 then put_control true ty (if p_code st =? 0 then done k else k) else wskip)).
  { destruct (p_code st =? 0); [|exact inside_skip]. unfold put_control. apply inside_block. refine (inside_seq _ _ (inside_byte _) _). refine (inside_seq _ _ (inside_byte _) _).
    refine (inside_seq _ _ (inside_uuid _ _) _). refine (inside_seq _ _ (inside_u16 _ _) _). refine (inside_seq _ _ (inside_u16 _ _) _). refine (inside_seq _ _ (inside_u16 _ _) _). apply inside_u16. }
  unfold control_rsp.
  destruct (inside_u32 true (u32 (16777216 * p_code st + 65536 * p_decode st + 256 * p_code1 st + p_code2 st)) b len pos P L N) as (b1 & p1 & E1 & Q1 & L1 & K1).
  unfold put_pnet_status. rewrite E1. cbn [obind w_pos].
  destruct (inside_ndr true d b1 len p1 ltac:(lia) ltac:(lia) N) as (b2 & p2 & E2 & Q2 & L2 & K2). rewrite E2. cbn [obind w_pos].
  destruct (B b2 len p2 ltac:(lia) ltac:(lia) N) as (b3 & p3 & E3 & Q3 & L3 & K3). rewrite E3. cbn [obind w_pos w_buf w_len].
  destruct (inside_ndr true (mkNdr (u32 (p3 - p2)) (d_max d) (d_offset d) (u32 (p3 - p2))) b3 len p1 ltac:(lia) ltac:(lia) N) as (b4 & p4 & E4 & Q4 & L4 & K4). rewrite E4. cbn [obind w_buf w_len].
  eexists _, _, _. split; [reflexivity|]. exists b, b4. cbn [w_buf w_len w_pos]. repeat split; try lia; try congruence.
  intros j J. rewrite K4, K3, K2, K1; [reflexivity| | | |]; destruct J; lia.
Qed.

(** C128: whatever the request, the state of the session and the room for the response: both requests are
    answered, in bounded time, and nothing outside that room is written. *)
Theorem C128_safe : forall known after act fuel s seq st d b i w, Forall byte b -> Z.of_nat (length b) < 65536 -> 0 <= i <= Z.of_nat (length b) -> (length b < fuel)%nat -> buffer w ->
  (exists o w', release_ind true known after fuel st d (rdr b i) w = Ok (o, w') /\ kept w w') /\
  (exists o s' w', dcontrol_ind true known act fuel s seq d (rdr b i) w = Ok (o, s', w') /\ kept w w').
Proof.
  intros known after act fuel s seq st d b i w B S0 I F W. split.
  - unfold release_ind. destruct (rsp_inside 33044 st d control0 w W) as (d1 & k1 & w1 & E1 & (b0 & b1 & X1 & X2 & X3 & X4 & X5 & X6)). rewrite E1. cbn [obind].
    assert (WW : forall w2, w_len w2 = w_len w -> (exists b2, w_buf w2 = Some b2 /\ length b2 = length b0 /\ forall i, (i < Z.to_nat (w_pos w))%nat \/ (Z.to_nat (w_len w) <= i)%nat -> nth i b2 0 = nth i b0 0) ->
      forall (o : option control) e, exists o' w', (do w3 <- put_pnet_status true e (mkWr (w_buf w2) (w_len w2) (w_pos w)); Ok (o, mkWr (w_buf w3) (w_len w3) (w_pos w1))) = Ok (o', w') /\ kept w w').
    { intros [wb2 l2 p2] Y1 (b2 & Y2 & Y3 & Y4) o e. cbn [w_buf w_len] in *. subst wb2 l2. destruct W as (b9 & Z1 & Z2 & Z3 & Z4). rewrite X1 in Z1. injection Z1 as <-.
      destruct (inside_u32 true (u32 (16777216 * p_code e + 65536 * p_decode e + 256 * p_code1 e + p_code2 e)) b2 (w_len w) (w_pos w) Z2 ltac:(lia) Z4) as (b3 & p3 & E3 & Q3 & L3 & K3).
      unfold put_pnet_status. rewrite E3. cbn [obind w_buf w_len]. eexists _, _. split; [reflexivity|]. exists b0, b3. cbn [w_buf w_len w_pos]. repeat split; try lia; try congruence.
      intros j J. rewrite K3 by exact J. apply Y4. exact J. }
    assert (W1 : exists b2, w_buf w1 = Some b2 /\ length b2 = length b0 /\ forall i, (i < Z.to_nat (w_pos w))%nat \/ (Z.to_nat (w_len w) <= i)%nat -> nth i b2 0 = nth i b0 0) by (exists b1; auto).
    destruct (negb (p_code st =? 0)); [cbn [obind]; apply WW; assumption|].
    destruct (interpret_read b B S0 release_kind fuel (d_args d1) (0, k1) i I ltac:(lia)) as (v & [ty k] & EI & _). rewrite EI. cbn [obind].
    destruct v as [e|]; [cbn [obind]; apply WW; assumption|]. destruct (known (k_uuid k)); [|cbn [obind]; apply WW; assumption].
    assert (WB : buffer (mkWr (w_buf w1) (w_len w1) (w_pos w))).
    { destruct W as (b9 & Z1 & Z2 & Z3 & Z4). rewrite X1 in Z1. injection Z1 as <-. exists b1. cbn [w_buf w_len w_pos]. repeat split; try lia; assumption. }
    destruct (rsp_inside 33044 st d1 k _ WB) as (d2 & k2 & w2 & E2 & (b2 & b3 & Y1 & Y2 & Y3 & Y4 & Y5 & Y6)). rewrite E2. cbn [obind snd]. cbn [w_buf w_len w_pos] in *.
    apply WW; [congruence|]. exists b3. split; [exact Y2|]. rewrite X2 in Y1. injection Y1 as <-. split; [congruence|]. intros j J. rewrite Y6 by (rewrite X3; exact J). apply X6. exact J.
  - unfold dcontrol_ind. destruct (interpret_read b B S0 dcontrol_kind fuel (d_args d) (0, control0) i I ltac:(lia)) as (v & [ty k] & EI & _). rewrite EI. cbn [obind].
    assert (G : forall (o : option (Z * control)) (s' : dsess) st', exists o0 s0 w', (do x <- control_rsp true (if ty =? 273 then 33041 else 33040) st' d k w; Ok (o, s', snd x)) = Ok (o0, s0, w') /\ kept w w').
    { intros o s' st'. destruct (rsp_inside (if ty =? 273 then 33041 else 33040) st' d k w W) as (d1 & k1 & w1 & E1 & K1). rewrite E1. cbn [obind snd]. eauto. }
    destruct v as [e|]; [apply G|]. destruct (negb (s_seq s =? seq)); [|apply G]. destruct (known (k_uuid k)); apply G.
Qed.
Print Assumptions C128_safe.

(** * Examples, and what does not hold *)

Definition ex_uuid4_ : list Z := [1; 2; 3; 4; 5; 6; 7; 8].
Definition ex_id : uuid := mkUuid 287454020 21862 30600 ex_uuid4_.
Definition ex_req (ty cmd : Z) : list Z := [1; ty; 0; 28; 1; 0; 0; 0; 17; 34; 51; 68; 85; 102; 119; 136] ++ ex_uuid4_ ++ [0; 7; 0; 0; 0; cmd; 0; 0].
Definition ex_ctl (cmd : Z) : control := mkControl ex_id 7 cmd 0 0.
Definition ex_ndr (n : Z) : ndr := mkNdr n 200 0 n.
Definition ex_known (u : uuid) : bool := u_d1 u =? 287454020.
Definition fine : pnio := mkPnio 0 0 0 0.

(** A release request and a DControl request as C128 speaks of them. *)
Example C128_example : one_block (ex_req 20 4) 0 (276, ex_ctl 4) /\ one_block (ex_req 16 1) 0 (272, ex_ctl 1) /\ ex_known (k_uuid (ex_ctl 4)) = true /\
  room_for 52 (mkWr (Some (repeat 0 60)) 60 0) /\ buffer (mkWr (Some (repeat 0 60)) 30 20) /\ ndr_ok (ex_ndr 32) /\ Forall byte (ex_req 20 4).
Proof.
  split; [split; [reflexivity|split; [vm_compute; discriminate|reflexivity]]|]. split; [split; [reflexivity|split; [vm_compute; discriminate|reflexivity]]|].
  split; [reflexivity|]. split; [exists (repeat 0 60); cbn; repeat split; lia|]. split; [exists (repeat 0 60); cbn; repeat split; lia|].
  split; [repeat split; cbn; lia|]. repeat (apply Forall_cons; [unfold byte; lia|]). apply Forall_nil.
Qed.

(** Length of the arguments: not looked at in release requests, the length of the response stands in its
    place. *)
Theorem C128_args_refuted : ~ (forall known after fuel d b w o w', release_ind true known after fuel fine d (rdr b 0) w = Ok (o, w') -> o <> None -> d_args d = Z.of_nat (length b)).
Proof.
  intros H. assert (X : exists k w', release_ind true ex_known fine 40 fine (ex_ndr 5) (rdr (ex_req 20 4) 0) (mkWr (Some (repeat 0 60)) 60 0) = Ok (Some k, w')) by (eexists _, _; vm_compute; reflexivity).
  destruct X as (k & w' & X). assert (Y := H _ _ _ _ _ _ _ _ X ltac:(discriminate)). discriminate Y.
Qed.
Print Assumptions C128_args_refuted.

(** A proper request of a controller that gives too little room for the response does not release. *)
Theorem C128_room_refuted : ~ (forall known after fuel d b w k, (length b < fuel)%nat -> buffer w -> one_block b 0 (276, k) -> k_command k = 4 -> known (k_uuid k) = true -> d_args d = 32 ->
  exists w', release_ind true known after fuel fine d (rdr b 0) w = Ok (Some k, w')).
Proof.
  intros H. destruct (H ex_known fine 40%nat (ex_ndr 32) (ex_req 20 4) (mkWr (Some (repeat 0 60)) 30 0) (ex_ctl 4)) as (w' & E); try reflexivity; try (cbn; lia).
  - exists (repeat 0 60). cbn. repeat split; lia.
  - split; [reflexivity|split; [vm_compute; discriminate|reflexivity]].
  - vm_compute in E. discriminate E.
Qed.
Print Assumptions C128_room_refuted.

(** A refused release request is answered with an error, and with a block that says the command is done, for
    no connection: the controller never sent one with these numbers. *)
Theorem C128_refused_refuted : exists b w o w' e, room_for 52 w /\ release_ind true ex_known fine 40 fine (ex_ndr 32) (rdr b 0) w = Ok (o, w') /\ o = None /\ p_code e = 220 /\
  replied w w' (mkReply e 32 200 0 32 (Some (33044, mkControl (mkUuid 0 0 0 (repeat 0 8)) 0 8 0 0))).
Proof.
  exists (ex_req 20 1), (mkWr (Some (repeat 0 60)) 60 0). eexists _, _, (mkPnio 220 129 64 6). split; [exists (repeat 0 60); cbn; repeat split; lia|].
  split; [vm_compute; reflexivity|]. split; [reflexivity|]. split; [reflexivity|]. exists (repeat 0 60), (ersp (mkPnio 220 129 64 6) fine (ex_ndr 32) 33044 control0).
  split; [reflexivity|]. split; [|reflexivity]. refine (dec_reply (mkPnio 220 129 64 6) fine (ex_ndr 32) 33044 control0 _ _ (fun _ => control0_ok)); [repeat split; cbn; lia|lia].
Qed.
Print Assumptions C128_refused_refuted.

(** The first DControl request of a session is answered with success but not handed on if its sequence number
    is the largest one. *)
Theorem C128_first_refuted : ~ (forall known act fuel seq d b w ty k o s' w', 0 <= seq < 4294967296 -> (length b < fuel)%nat -> one_block b 0 (ty, k) -> In ty [280; 272; 273] -> k_command k = 1 -> d_args d = 32 ->
  known (k_uuid k) = true -> dcontrol_ind true known act fuel dsess0 seq d (rdr b 0) w = Ok (o, s', w') -> o = Some (ty, k)).
Proof.
  intros H. assert (X : exists s' w', dcontrol_ind true ex_known (fun _ _ => fine) 40 dsess0 4294967295 (ex_ndr 32) (rdr (ex_req 16 1) 0) (mkWr (Some (repeat 0 60)) 60 0) = Ok (None, s', w')) by (eexists _, _; vm_compute; reflexivity).
  destruct X as (s' & w' & X). assert (Y : None = Some (272, ex_ctl 1)); [|discriminate Y]. refine (H _ _ _ _ _ _ _ _ _ _ _ _ _ _ _ _ _ _ _ X); try reflexivity; try lia; [cbn; lia|split; [reflexivity|split; [vm_compute; discriminate|reflexivity]]|cbn; auto].
Qed.
Print Assumptions C128_first_refuted.

(** A header of an unknown block that claims more than there is, is skipped, and a control block behind it
    handed on. *)
Theorem C128_unknown_refuted : ~ (forall known act fuel s seq d b w o s' w', dcontrol_ind true known act fuel s seq d (rdr b 0) w = Ok (o, s', w') -> o <> None -> In (at16 b 0) [280; 272; 273]).
Proof.
  intros H. assert (X : exists k s' w', dcontrol_ind true ex_known (fun _ _ => fine) 40 dsess0 1 (ex_ndr 38) (rdr ([255; 255; 255; 255; 1; 0] ++ ex_req 16 1) 0) (mkWr (Some (repeat 0 60)) 60 0) = Ok (Some k, s', w'))
    by (eexists _, _, _; vm_compute; reflexivity).
  destruct X as (k & s' & w' & X). assert (Y := H _ _ _ _ _ _ _ _ _ _ _ X ltac:(discriminate)). vm_compute in Y. intuition discriminate.
Qed.
Print Assumptions C128_unknown_refuted.

(** * Confirmations of CControl requests *)

(** C130: a confirmation counts only for a block of the types for it, that stands in it and says done; and one
    that is such a block, with the right length, does. *)
Theorem C130_confirmed : forall fuel d b i, Forall byte b -> Z.of_nat (length b) < 65536 -> 0 <= i <= Z.of_nat (length b) -> (length b < fuel)%nat ->
  exists o, ccontrol_cnf fuel d (rdr b i) = Ok o /\
    (forall ty k, o = Some (ty, k) -> k_command k = 8 /\ d_args d = Z.of_nat (length b) - i /\ found b [33042; 33043] i (ty, k)) /\
    (forall ty k, one_block b i (ty, k) -> In ty [33042; 33043] -> k_command k = 8 -> d_args d = 32 -> o = Some (ty, k)).
Proof.
  intros fuel d b i B S0 I F. unfold ccontrol_cnf.
  destruct (interpret_read b B S0 ccontrol_kind fuel (d_args d) (0, control0) i I ltac:(lia)) as (v & [ty k] & EI & V1 & V2). rewrite EI. cbn [obind].
  eexists. split; [reflexivity|]. split.
  - destruct v as [e|]; [discriminate|]. destruct (V2 eq_refl) as (Ha & Hc & a & c & A1 & A2 & A3 & A4 & A5). cbn [ccontrol_kind f_command f_types snd] in *.
    rewrite Hc. cbn [Z.eqb Pos.eqb]. intros ty' k' [= <- <-]. split; [exact Hc|]. split; [exact Ha|]. apply A5.
    destruct (Z.eq_dec c 0) as [C0|C0]; [|lia]. pose proof (A4 C0) as E. injection E as _ E. rewrite E in Hc. discriminate.
  - intros ty' k' (O1 & O2 & O3) O4 O7 O8. unfold block_at in O3. injection O3 as O5 O6.
    assert (Q4 : at16 b (i + 28) = 8) by (rewrite O6 in O7; exact O7). rewrite O8 in EI. rewrite O5 in O4.
    rewrite (interpret_one b B S0 ccontrol_kind fuel (0, control0) i ltac:(lia) ltac:(lia) O1 O2 O4 Q4) in EI.
    injection EI as <- <- <-. cbn [k_command]. replace (at16 b (i + 28) =? 8) with true by (symmetry; apply Z.eqb_eq; exact Q4). rewrite O5, O6. reflexivity.
Qed.
Print Assumptions C130_confirmed.

Definition ex_cnf : list Z := [129; 18; 0; 28; 1; 0; 0; 0; 17; 34; 51; 68; 85; 102; 119; 136] ++ ex_uuid4_ ++ [0; 7; 0; 0; 0; 8; 0; 0].
Example C130_example : one_block ex_cnf 0 (33042, ex_ctl 8) /\ ccontrol_cnf 40 (ex_ndr 32) (rdr ex_cnf 0) = Ok (Some (33042, ex_ctl 8)).
Proof. split; [split; [reflexivity|split; [vm_compute; discriminate|reflexivity]]|vm_compute; reflexivity]. Qed.

(** The UUID in a confirmation is not that of the connection: it is not looked at.  Two confirmations that
    differ only in it both count. *)
Theorem C130_uuid_refuted : exists b b' k k', ccontrol_cnf 40 (ex_ndr 32) (rdr b 0) = Ok (Some (33042, k)) /\ ccontrol_cnf 40 (ex_ndr 32) (rdr b' 0) = Ok (Some (33042, k')) /\
  k_uuid k <> k_uuid k' /\ k_session k = k_session k'.
Proof.
  exists ex_cnf, (firstn 8 ex_cnf ++ repeat 0 16 ++ skipn 24 ex_cnf). eexists _, _. split; [vm_compute; reflexivity|]. split; [vm_compute; reflexivity|]. split; [discriminate|reflexivity].
Qed.
Print Assumptions C130_uuid_refuted.
