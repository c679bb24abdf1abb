(** The response to a connect request (C120). *)
From Coq Require Import List ZArith Arith Bool Lia.
From Verif Require Import Base ConnModel ConnProps ConnRangeProps IdentModel DiffModel DiffProps BlockModel BlockReadLemmas BlockWriteProps DiffBlockProps ConnRspModel.
Import ListNotations.
Local Open Scope Z_scope.

(** * Specification *)

(** The blocks a controller reads: each starts with its type and length; what is behind the
    fields up to the length is padding. *)
Inductive block :=
| BAr (type : Z) (u : uuid) (key : Z) (mac : list Z) (port : Z)
| BIocr (type reference frame : Z)
| BAlarm (type reference maximum : Z)
| BDiff (l : list dapi)
| BRpc (port : Z)
| BServer (name : list Z)
| BVendor (ap api : Z) (data : list Z).
Definition get_bytes (n : nat) : reader (list Z) := rlist get_byte n.
Definition get_body (h : bhead) : reader (option block) :=
  if b_type h =? 33025 then
    rdo t <- get_u16; rdo u <- get_uuid (repeat 0 8); rdo k <- get_u16; rdo m <- get_bytes 6; rdo p <- get_u16; rret (Some (BAr t u k m p))
  else if b_type h =? 33026 then rdo t <- get_u16; rdo r <- get_u16; rdo f <- get_u16; rret (Some (BIocr t r f))
  else if b_type h =? 33027 then rdo t <- get_u16; rdo r <- get_u16; rdo n <- get_u16; rret (Some (BAlarm t r n))
  else if b_type h =? 33028 then rdo l <- counted get_dapi; rret (Some (BDiff l))
  else if b_type h =? 33031 then rdo p <- get_u16; rret (Some (BRpc p))
  else if b_type h =? 33030 then
    rdo n <- get_u16; rdo l <- get_bytes (Z.to_nat n); rdo _ <- get_bytes (Z.to_nat (b_length h - 4 - n)); rret (Some (BServer l))
  else if b_type h =? 33032 then
    rdo a <- get_u32; rdo i <- get_u32; rdo n <- get_u16; rdo l <- get_bytes (Z.to_nat n);
    rdo _ <- get_bytes (Z.to_nat (b_length h - 12 - n)); rret (Some (BVendor a i l))
  else rret None.
Definition get_one : reader (option block) := rdo h <- get_block_header; get_body h.
(** Blocks up to a position. *)
Fixpoint until {A} (m : reader A) (fuel : nat) (stop : Z) : reader (list A) := fun r =>
  match fuel with
  | O => Ok ([], r)
  | S k => if stop <=? r_pos r then Ok ([], r) else (rdo x <- m; rdo l <- until m k stop; rret (x :: l)) r
  end.
(** The response: status, length of the arguments, maximum, offset, count, blocks. *)
Record rsp := mkRsp { s_status : pnio; s_args : Z; s_max : Z; s_offset : Z; s_count : Z; s_blocks : list (option block) }.
Definition get_rsp : reader rsp :=
  rdo st <- get_pnio_status; rdo a <- get_u32; rdo m <- get_u32; rdo o <- get_u32; rdo n <- get_u32;
  rdo l <- (fun r => until get_one (Z.to_nat n) (r_pos r + n) r); rret (mkRsp st a m o n l).

(** What a connection is told. *)
Definition says (c : con) : list block :=
  [BAr (co_type c) (co_uuid c) (co_key c) (co_mac c) (co_port c)] ++
  map (fun x : Z * Z * Z => BIocr (fst (fst x)) (snd (fst x)) (snd x)) (co_crs c) ++
  [BAlarm (fst (fst (co_alarm c))) (snd (fst (co_alarm c))) (snd (co_alarm c))] ++
  (match listing (co_diff c) with [] => [] | l => [BDiff (map shown l)] end) ++
  (match co_rpc c with Some p => [BRpc p] | None => [] end) ++
  (if co_adv c then BServer (co_name c) :: map (fun v => BVendor (vd_ap v) (vd_api v) (vd_data v)) (co_vendors c) else []).
(** Its size. *)
Definition up4 (n : nat) : nat := (4 * ((n + 3) / 4))%nat.
Definition size (x : block) : nat :=
  match x with
  | BAr _ _ _ _ _ => 34 | BIocr _ _ _ => 12 | BAlarm _ _ _ => 12 | BDiff l => 6 + block_size l | BRpc _ => 8
  | BServer l => up4 (8 + length l) | BVendor _ _ l => up4 (16 + length l)
  end.

Definition u16_ok (v : Z) : Prop := 0 <= v < 65536.
Definition u32_ok (v : Z) : Prop := 0 <= v < 4294967296.
Definition three_ok (x : Z * Z * Z) : Prop := u16_ok (fst (fst x)) /\ u16_ok (snd (fst x)) /\ u16_ok (snd x).
Definition con_ok (c : con) : Prop :=
  u16_ok (co_type c) /\ uuid_ok (co_uuid c) /\ u16_ok (co_key c) /\ length (co_mac c) = 6%nat /\ u16_ok (co_port c) /\
  Forall three_ok (co_crs c) /\ three_ok (co_alarm c) /\
  pointing_all (co_diff c) /\ diff_ok (listing (co_diff c)) /\ none_missing (listing (co_diff c)) /\ Z.of_nat (block_size (listing (co_diff c))) < 65534 /\
  (forall p, co_rpc c = Some p -> u16_ok p) /\ (length (co_name c) <= 240)%nat /\
  Forall (fun v => u32_ok (vd_ap v) /\ u32_ok (vd_api v) /\ Z.of_nat (length (vd_data v)) <= 65000) (co_vendors c).
Definition ndr_ok (d : ndr) : Prop := u32_ok (d_args d) /\ u32_ok (d_max d) /\ u32_ok (d_offset d) /\ u32_ok (d_count d).

(** * Blocks with padding *)

Definition pad_to (n : nat) : nat := (up4 n - n)%nat.
Lemma up4_spec : forall n, (n <= up4 n)%nat /\ (up4 n <= n + 3)%nat /\ Z.of_nat (up4 n) mod 4 = 0.
Proof.
  intros n. unfold up4. pose proof (Nat.div_mod (n + 3) 4 ltac:(lia)) as D. pose proof (Nat.mod_upper_bound (n + 3) 4 ltac:(lia)) as M.
  split; [lia|]. split; [lia|]. rewrite Nat2Z.inj_mul. rewrite Z.mul_comm. apply Z.mod_mul. lia.
Qed.
Lemma enc_align : forall k fuel start b len pos, (k <= 3)%nat -> (3 <= fuel)%nat -> 0 <= start <= pos -> pos + Z.of_nat k <= len -> len <= Z.of_nat (length b) -> len < 65536 ->
  (pos + Z.of_nat k - start) mod 4 = 0 ->
  align fuel start (mkWr (Some b) len pos) = put_padding k (mkWr (Some b) len pos).
Proof.
  assert (G : forall k fuel start b len pos, (k <= 3)%nat -> (k <= fuel)%nat -> 0 <= start <= pos -> pos + Z.of_nat k <= len -> len <= Z.of_nat (length b) -> len < 65536 ->
    (pos + Z.of_nat k - start) mod 4 = 0 -> put_padding_align fuel start 4 (mkWr (Some b) len pos) = Some (put_padding k (mkWr (Some b) len pos))).
  { induction k as [|k IH]; intros fuel start b len pos K F S1 L M N A.
    - destruct fuel; cbn [put_padding_align w_pos put_padding]; rewrite Z.rem_mod_nonneg by lia; replace (pos - start) with (pos + Z.of_nat 0 - start) by lia; rewrite A; reflexivity.
    - destruct fuel as [|fuel]; [lia|]. cbn [put_padding_align w_pos put_padding]. rewrite Z.rem_mod_nonneg by lia.
      destruct (Z.eqb_spec ((pos - start) mod 4) 0) as [E|E]; [exfalso; replace (pos + Z.of_nat (S k) - start) with ((pos - start) + Z.of_nat (S k)) in A by lia; rewrite Z.add_mod, E, Z.add_0_l, Z.mod_mod, Z.mod_small in A by lia; lia|].
      unfold wseq. assert (E0 : enc (put_byte 0) [0]) by (apply enc_byte; unfold byte; lia). rewrite E0 by (cbn [length]; lia). cbn [obind length].
      apply IH; try lia. rewrite put_at_length by (cbn [length]; lia). lia. rewrite <- A. f_equal. lia. }
  intros k fuel start b len pos K F S1 L M N A. unfold align. rewrite (G k) by (try assumption; lia). reflexivity.
Qed.
Lemma enc_padded : forall fuel be ty body bs, (3 <= fuel)%nat -> 0 <= ty < 65536 -> Z.of_nat (length bs) < 65530 -> enc body bs ->
  enc (fun w => put_block be ty (body ;; align fuel (w_pos w)) w) (eblock be ty (bs ++ repeat 0 (pad_to (6 + length bs)))).
Proof.
  intros fuel be ty body bs F T L B b len pos P Ln M N. cbn [w_pos].
  destruct (up4_spec (6 + length bs)) as (U1 & U2 & U3).
  assert (LB : length (eblock be ty (bs ++ repeat 0 (pad_to (6 + length bs)))) = (6 + length bs + pad_to (6 + length bs))%nat).
  { unfold eblock. rewrite !app_length, !e16_length, repeat_length. cbn [length]. lia. }
  assert (LP : (pad_to (6 + length bs) <= 3)%nat) by (unfold pad_to; lia).
  assert (LQ : Z.of_nat (length (bs ++ repeat 0 (pad_to (6 + length bs)))) < 65534) by (rewrite app_length, repeat_length; lia).
  rewrite <- (enc_block be ty (body ;; put_padding (pad_to (6 + length bs))) _ T LQ (enc_seq _ _ _ _ B (enc_padding _)) b len pos P Ln M N).
  rewrite LB in Ln. unfold put_block, wseq. cbn [w_pos].
  assert (EH : enc (put_block_header be ty 0 1 0) (e16 be ty ++ e16 be (0 + 2) ++ [1; 0])) by (apply enc_header; unfold byte; lia).
  assert (LH : length (e16 be ty ++ e16 be (0 + 2) ++ [1; 0]) = 6%nat) by (rewrite !app_length, !e16_length; reflexivity).
  rewrite EH by lia. cbn [obind]. rewrite B by (rewrite ?put_at_length; lia). cbn [obind].
  assert (LL : length (put_at b (Z.to_nat pos) (e16 be ty ++ e16 be (0 + 2) ++ [1; 0])) = length b) by (apply put_at_length; lia).
  rewrite (enc_align (pad_to (6 + length bs))); [reflexivity|exact LP|exact F|lia|lia|rewrite put_at_length by lia; lia|exact N|].
  rewrite LH. replace (pos + Z.of_nat 6 + Z.of_nat (length bs) + Z.of_nat (pad_to (6 + length bs)) - pos) with (Z.of_nat (up4 (6 + length bs))) by (unfold pad_to; lia). exact U3.
Qed.

(** * The text of the blocks *)

Definition view (x : block) : block := match x with BDiff l => BDiff (map shown l) | _ => x end.
Definition raw (c : con) : list block :=
  [BAr (co_type c) (co_uuid c) (co_key c) (co_mac c) (co_port c)] ++
  map (fun x : Z * Z * Z => BIocr (fst (fst x)) (snd (fst x)) (snd x)) (co_crs c) ++
  [BAlarm (fst (fst (co_alarm c))) (snd (fst (co_alarm c))) (snd (co_alarm c))] ++
  (match listing (co_diff c) with [] => [] | l => [BDiff l] end) ++
  (match co_rpc c with Some p => [BRpc p] | None => [] end) ++
  (if co_adv c then BServer (co_name c) :: map (fun v => BVendor (vd_ap v) (vd_api v) (vd_data v)) (co_vendors c) else []).
Lemma raw_says : forall c, map view (raw c) = says c.
Proof.
  intros c. unfold raw, says. rewrite !map_app. cbn [map view]. rewrite map_map. cbn [view]. f_equal. f_equal. f_equal.
  f_equal; [destruct (listing (co_diff c)); reflexivity|]. f_equal; [destruct (co_rpc c); reflexivity|].
  destruct (co_adv c); [|reflexivity]. cbn [map view]. rewrite map_map. reflexivity.
Qed.
Definition bok (x : block) : Prop :=
  match x with
  | BAr t u k m p => u16_ok t /\ uuid_ok u /\ u16_ok k /\ length m = 6%nat /\ u16_ok p
  | BIocr a b c | BAlarm a b c => three_ok (a, b, c)
  | BDiff l => diff_ok l /\ none_missing l /\ Z.of_nat (block_size l) < 65534
  | BRpc p => u16_ok p
  | BServer l => Z.of_nat (length l) <= 65000
  | BVendor a i l => u32_ok a /\ u32_ok i /\ Z.of_nat (length l) <= 65000
  end.
Definition padded (bs : list Z) : list Z := bs ++ repeat 0 (pad_to (6 + length bs)).
Definition eb (be : bool) (x : block) : list Z :=
  match x with
  | BAr t u k m p => eblock be 33025 (e16 be t ++ euuid be u ++ e16 be k ++ m ++ e16 be p)
  | BIocr a b c => eblock be 33026 (e16 be a ++ e16 be b ++ e16 be c)
  | BAlarm a b c => eblock be 33027 (e16 be a ++ e16 be b ++ e16 be c)
  | BDiff l => eblock be 33028 (ediff be l)
  | BRpc p => eblock be 33031 (e16 be p)
  | BServer l => eblock be 33030 (padded (e16 be (Z.of_nat (length l)) ++ l))
  | BVendor a i l => eblock be 33032 (padded (e32 be a ++ e32 be i ++ e16 be (Z.of_nat (length l)) ++ l))
  end.
Lemma eblock_length : forall be ty bs, length (eblock be ty bs) = (6 + length bs)%nat.
Proof. intros. unfold eblock. rewrite !app_length, !e16_length. reflexivity. Qed.
Lemma padded_length : forall bs, length (padded bs) = (up4 (6 + length bs) - 6)%nat.
Proof. intros bs. unfold padded, pad_to. rewrite app_length, repeat_length. destruct (up4_spec (6 + length bs)). lia. Qed.
Lemma block_size_shown : forall l, block_size (map shown l) = block_size l.
Proof.
  intros l. unfold block_size. f_equal. f_equal. rewrite map_map. apply map_ext. intros [a m]. unfold api_size. cbn [snd shown].
  f_equal. f_equal. rewrite map_map. apply map_ext. intros [[[s id] st] e]. cbn [shown_mod mod_size]. rewrite map_length. reflexivity.
Qed.
Lemma eb_length : forall be x, bok x -> length (eb be x) = size (view x).
Proof.
  intros be x O. destruct x as [t u k m p|a b c|a b c|l|p|l|a i l]; cbn [eb view size bok] in *; rewrite eblock_length; rewrite ?padded_length, ?app_length, ?e16_length, ?e32_length; try reflexivity.
  - destruct O as (_ & U & _ & M & _). rewrite (euuid_length be u U), M. reflexivity.
  - destruct O as (_ & M & _). rewrite (ediff_length be l M), block_size_shown. reflexivity.
  - destruct (up4_spec (6 + (2 + length l))). change (8 + length l)%nat with (6 + (2 + length l))%nat. lia.
  - destruct (up4_spec (6 + (4 + (4 + (2 + length l))))). change (16 + length l)%nat with (6 + (4 + (4 + (2 + length l))))%nat. lia.
Qed.
Lemma dec_raw : forall be l, dec be be (get_bytes (length l)) l l.
Proof.
  intros be l. pose proof (dec_list Z Z be get_byte (fun x => [x]) (fun x => x) l (fun x _ => dec_byte be x)) as H.
  rewrite map_id in H. replace (flat_map (fun x : Z => [x]) l) with l in H; [exact H|]. clear H. induction l as [|x l IH]; [reflexivity|]. cbn [flat_map app]. rewrite <- IH. reflexivity.
Qed.
Lemma dec_raw_n : forall be n l, length l = n -> dec be be (get_bytes n) l l.
Proof. intros be n l <-. apply dec_raw. Qed.
Lemma dec_one : forall A be ty bs (m : bhead -> reader A) x, 0 <= ty < 65536 -> Z.of_nat (length bs) < 65534 -> dec be be (m (mkBhead ty (2 + Z.of_nat (length bs)) 1 0)) bs x ->
  dec be be (rdo h <- get_block_header; m h) (eblock be ty bs) x.
Proof.
  intros A be ty bs m x T L D. unfold eblock.
  replace (e16 be ty ++ e16 be (2 + Z.of_nat (length bs)) ++ [1; 0] ++ bs)
    with ((e16 be ty ++ e16 be (2 + Z.of_nat (length bs)) ++ [1; 0]) ++ bs) by (rewrite <- !app_assoc; reflexivity).
  eapply dec_bind; [apply dec_header; lia|]. exact D.
Qed.
Lemma dec_eb : forall be x, bok x -> dec be be get_one (eb be x) (Some (view x)).
Proof.
  intros be x O. unfold get_one, u16_ok, u32_ok, three_ok in *. destruct x as [t u k m p|a b c|a b c|l|p|l|a i l]; cbn [eb view bok] in *; cbn [fst snd] in *; unfold u16_ok, u32_ok in *.
  - destruct O as (T & U & K & M & P). apply dec_one; [lia|rewrite !app_length, !e16_length, (euuid_length be u U), M; cbn; lia|]. unfold get_body. cbn [b_type Z.eqb Pos.eqb].
    eapply dec_bind; [apply dec_u16; exact T|]. eapply dec_bind; [apply dec_uuid; [exact U|reflexivity]|]. eapply dec_bind; [apply dec_u16; exact K|].
    eapply dec_bind; [apply dec_raw_n; exact M|]. eapply dec_last; [apply dec_u16; exact P|reflexivity].
  - destruct O as (A & B & C). cbn [fst snd] in *. unfold u16_ok in *. apply dec_one; [lia|rewrite !app_length, !e16_length; cbn; lia|]. unfold get_body. cbn [b_type Z.eqb Pos.eqb].
    eapply dec_bind; [apply dec_u16; exact A|]. eapply dec_bind; [apply dec_u16; exact B|]. eapply dec_last; [apply dec_u16; exact C|reflexivity].
  - destruct O as (A & B & C). cbn [fst snd] in *. unfold u16_ok in *. apply dec_one; [lia|rewrite !app_length, !e16_length; cbn; lia|]. unfold get_body. cbn [b_type Z.eqb Pos.eqb].
    eapply dec_bind; [apply dec_u16; exact A|]. eapply dec_bind; [apply dec_u16; exact B|]. eapply dec_last; [apply dec_u16; exact C|reflexivity].
  - destruct O as ((D1 & D2) & M & L). apply dec_one; [lia|rewrite (ediff_length be l M); lia|]. unfold get_body. cbn [b_type Z.eqb Pos.eqb].
    eapply dec_last; [|reflexivity]. apply dec_counted; [exact D1|]. intros x I. apply dec_dapi; [exact (D2 x I)|]. intros [[[s id] st] e] J. exact (M x s id st e I J).
  - apply dec_one; [lia|rewrite e16_length; cbn; lia|]. unfold get_body. cbn [b_type Z.eqb Pos.eqb]. eapply dec_last; [apply dec_u16; exact O|reflexivity].
  - pose proof (up4_spec (6 + (2 + length l))) as (U1 & U2 & _).
    assert (LP : length (padded (e16 be (Z.of_nat (length l)) ++ l)) = (up4 (6 + (2 + length l)) - 6)%nat) by (rewrite padded_length, app_length, e16_length; reflexivity).
    apply dec_one; [lia|rewrite LP; lia|]. rewrite LP. unfold get_body. cbn [b_type b_length Z.eqb Pos.eqb]. unfold padded. rewrite <- app_assoc.
    eapply dec_bind; [apply dec_u16; lia|]. rewrite Nat2Z.id. eapply dec_bind; [apply dec_raw|].
    eapply dec_last; [apply dec_raw_n|reflexivity]. rewrite repeat_length, app_length, e16_length. unfold pad_to. lia.
  - destruct O as (A & I & L). pose proof (up4_spec (6 + (4 + (4 + (2 + length l))))) as (U1 & U2 & _).
    assert (LP : length (padded (e32 be a ++ e32 be i ++ e16 be (Z.of_nat (length l)) ++ l)) = (up4 (6 + (4 + (4 + (2 + length l)))) - 6)%nat) by (rewrite padded_length, !app_length, e16_length, !e32_length; reflexivity).
    apply dec_one; [lia|rewrite LP; lia|]. rewrite LP. unfold get_body. cbn [b_type b_length Z.eqb Pos.eqb]. unfold padded. rewrite <- !app_assoc.
    eapply dec_bind; [apply dec_u32; exact A|]. eapply dec_bind; [apply dec_u32; exact I|].
    eapply dec_bind; [apply dec_u16; lia|]. rewrite Nat2Z.id. eapply dec_bind; [apply dec_raw|].
    eapply dec_last; [apply dec_raw_n|reflexivity]. rewrite repeat_length, !app_length, e16_length, !e32_length. unfold pad_to. lia.
Qed.

Lemma dec_until : forall A B be (m : reader B) (e : A -> list Z) (v : A -> B) l fuel, (forall x, In x l -> dec be be m (e x) (v x) /\ e x <> []) -> (length l <= fuel)%nat ->
  forall pre post len, Z.of_nat (length pre + length (flat_map e l)) <= len -> len <= Z.of_nat (length (pre ++ flat_map e l ++ post)) -> len < 65536 ->
  until m fuel (Z.of_nat (length pre + length (flat_map e l))) (mkRd (Some (pre ++ flat_map e l ++ post)) len be POk (Z.of_nat (length pre)))
  = Ok (map v l, mkRd (Some (pre ++ flat_map e l ++ post)) len be POk (Z.of_nat (length pre + length (flat_map e l)))).
Proof.
  intros A B be m e v l. induction l as [|x l IH]; intros fuel D F pre post len L M N.
  - cbn [flat_map length map app]. rewrite Nat.add_0_r. destruct fuel; cbn [until r_pos]; [reflexivity|]. rewrite Z.leb_refl. reflexivity.
  - destruct fuel as [|fuel]; [cbn in F; lia|]. cbn [until r_pos flat_map length map] in *. destruct (D x (or_introl eq_refl)) as (Dx & Nx).
    rewrite app_length in *. assert (P : (0 < length (e x))%nat) by (destruct (e x); [contradiction|cbn; lia]).
    destruct (Z.leb_spec (Z.of_nat (length pre + (length (e x) + length (flat_map e l)))) (Z.of_nat (length pre))); [lia|].
    unfold rbind. rewrite <- !app_assoc in *. rewrite (Dx pre (flat_map e l ++ post) len) by (rewrite ?app_length in *; lia). cbn [obind].
    specialize (IH fuel (fun y I => D y (or_intror I)) ltac:(lia) (pre ++ e x) post len). rewrite !app_length, <- !app_assoc in IH.
    replace (length pre + (length (e x) + length (flat_map e l)))%nat with (length pre + length (e x) + length (flat_map e l))%nat by lia.
    rewrite IH by (rewrite ?app_length in *; lia). cbn [obind]. reflexivity.
Qed.

(** * Writing *)

Lemma enc_each : forall A (f : A -> writer) (e : A -> list Z) l, (forall x, In x l -> enc (f x) (e x)) -> enc (each f l) (flat_map e l).
Proof.
  intros A f e l. induction l as [|x l IH]; intros H; [exact enc_skip|]. cbn [each flat_map]. apply enc_seq; [apply H; left; reflexivity|]. apply IH. intros y I. apply H. right. exact I.
Qed.
Lemma con_raw_ok : forall c, con_ok c -> Forall bok (raw c).
Proof.
  intros c (T & U & K & M & P & C & (A1 & A2 & A3) & _ & D1 & D2 & D3 & R & N & V). unfold raw. repeat (apply Forall_app; split).
  - constructor; [|constructor]. cbn [bok]. auto.
  - apply Forall_forall. intros y I. apply in_map_iff in I. destruct I as (x & <- & I). rewrite Forall_forall in C. exact (C x I).
  - constructor; [|constructor]. cbn [bok]. split; [|split]; assumption.
  - destruct (listing (co_diff c)) eqn:E; constructor; [|constructor]. cbn [bok]. auto.
  - destruct (co_rpc c); constructor; [|constructor]. cbn [bok]. apply R. reflexivity.
  - destruct (co_adv c); constructor; [cbn [bok]; lia|]. apply Forall_forall. intros y I. apply in_map_iff in I. destruct I as (x & <- & I). rewrite Forall_forall in V. exact (V x I).
Qed.
Lemma enc_blocks : forall fuel be c, (3 <= fuel)%nat -> con_ok c -> enc (put_blocks fuel be c) (flat_map (eb be) (raw c)).
Proof.
  intros fuel be c F (T & U & K & M & P & C & (A1 & A2 & A3) & PA & D1 & D2 & D3 & R & N & V). unfold u16_ok in *. unfold put_blocks, raw. rewrite !flat_map_app.
  apply enc_seq; [|apply enc_seq; [|apply enc_seq; [|apply enc_seq; [|apply enc_seq]]]].
  - cbn [flat_map eb]. rewrite app_nil_r. unfold put_ar_result. apply enc_block; [lia|rewrite !app_length, !e16_length, (euuid_length be _ U), M; cbn; lia|].
    apply enc_seq; [apply enc_u16; exact T|]. apply enc_seq; [apply enc_uuid; exact U|]. apply enc_seq; [apply enc_u16; exact K|]. apply enc_seq; [apply enc_mem|apply enc_u16; exact P].
  - rewrite <- flat_map_at. apply enc_each. intros x I. rewrite Forall_forall in C. destruct (C x I) as (X1 & X2 & X3). unfold u16_ok in *. cbn [eb]. unfold put_iocr_result.
    apply enc_block; [lia|rewrite !app_length, !e16_length; cbn; lia|]. apply enc_seq; [apply enc_u16; exact X1|]. apply enc_seq; apply enc_u16; assumption.
  - cbn [flat_map eb]. rewrite app_nil_r. unfold put_alarm_cr_result. apply enc_block; [lia|rewrite !app_length, !e16_length; cbn; lia|]. unfold u16_ok in *. apply enc_seq; [apply enc_u16; exact A1|]. apply enc_seq; apply enc_u16; assumption.
  - assert (NL : length (listing (co_diff c)) = xi_nd (co_diff c)) by (unfold listing; rewrite map_length; apply chosen_length; exact (proj1 PA)).
    pose proof (ediff_length be _ D2) as EL. pose proof (enc_ar_diff be (co_diff c) PA D1) as E. destruct (listing (co_diff c)) as [|x l] eqn:EQ.
    + cbn [length] in NL. rewrite <- NL. exact enc_skip.
    + cbn [length] in NL. rewrite <- NL. cbn [Nat.ltb Nat.leb]. cbn [flat_map eb]. rewrite app_nil_r. apply E; [discriminate|]. rewrite EL. exact D3.
  - destruct (co_rpc c) as [p|] eqn:EQ; [|exact enc_skip]. cbn [flat_map eb]. rewrite app_nil_r. unfold put_ar_rpc_result. apply enc_block; [lia|rewrite e16_length; cbn; lia|]. apply enc_u16. apply R. reflexivity.
  - destruct (co_adv c); [|exact enc_skip]. cbn [flat_map]. apply enc_seq.
    + cbn [eb]. unfold put_ar_server_result. pose proof (enc_padded fuel be 33030 (put_u16 be (u16 (Z.of_nat (length (co_name c)))) ;; put_mem (co_name c)) (e16 be (Z.of_nat (length (co_name c))) ++ co_name c) F ltac:(lia) ltac:(rewrite app_length, e16_length; lia)) as E.
      eapply enc_ext; [|apply E; rewrite u16_id by lia; apply enc_seq; [apply enc_u16; lia|apply enc_mem]]. intros w. unfold put_block, wseq. destruct (put_block_header be 33030 0 1 0 w) as [w1| |]; [|reflexivity|reflexivity]. cbn [obind].
      destruct (put_u16 be (u16 (Z.of_nat (length (co_name c)))) w1) as [w2| |]; reflexivity.
    + rewrite <- flat_map_at. apply enc_each. intros x I. rewrite Forall_forall in V. destruct (V x I) as (X1 & X2 & X3). unfold u32_ok in *. cbn [eb]. unfold put_ar_vendor_result.
      pose proof (enc_padded fuel be 33032 (put_u32 be (vd_ap x) ;; put_u32 be (vd_api x) ;; put_u16 be (u16 (Z.of_nat (length (vd_data x)))) ;; put_mem (vd_data x))
        (e32 be (vd_ap x) ++ e32 be (vd_api x) ++ e16 be (Z.of_nat (length (vd_data x))) ++ vd_data x) F ltac:(lia) ltac:(rewrite !app_length, e16_length, !e32_length; lia)) as E.
      eapply enc_ext; [|apply E; rewrite u16_id by lia; apply enc_seq; [apply enc_u32; exact X1|]; apply enc_seq; [apply enc_u32; exact X2|]; apply enc_seq; [apply enc_u16; lia|apply enc_mem]].
      intros w. unfold put_block, wseq. destruct (put_block_header be 33032 0 1 0 w) as [w1| |]; [|reflexivity|reflexivity]. cbn [obind].
      destruct (put_u32 be (vd_ap x) w1) as [w2| |]; [|reflexivity|reflexivity]. cbn [obind]. destruct (put_u32 be (vd_api x) w2) as [w3| |]; [|reflexivity|reflexivity]. cbn [obind].
      destruct (put_u16 be (u16 (Z.of_nat (length (vd_data x)))) w3) as [w4| |]; reflexivity.
Qed.

Definition endr (be : bool) (d : ndr) : list Z := e32 be (d_args d) ++ e32 be (d_max d) ++ e32 be (d_offset d) ++ e32 be (d_count d).
Lemma endr_length : forall be d, length (endr be d) = 16%nat.
Proof. intros. unfold endr. rewrite !app_length, !e32_length. reflexivity. Qed.
Lemma enc_ndr : forall be d, ndr_ok d -> enc (put_ndr be d) (endr be d).
Proof.
  intros be d (A & B & C & D). unfold put_ndr, endr, u32_ok in *. apply enc_seq; [apply enc_u32; exact A|]. apply enc_seq; [apply enc_u32; exact B|]. apply enc_seq; apply enc_u32; assumption.
Qed.
Lemma enc_rsp : forall fuel st d o bs, pnio_ok st -> ndr_ok d -> enc (match o with Some c => put_blocks fuel true c | None => wskip end) bs ->
  Z.of_nat (length bs) < 65536 ->
  enc (connect_rsp fuel true st d o) ([p_code st; p_decode st; p_code1 st; p_code2 st] ++ endr true (mkNdr (Z.of_nat (length bs)) (d_max d) (d_offset d) (Z.of_nat (length bs))) ++ bs).
Proof.
  intros fuel st d o bs S1 D B L b len pos P Ln M N. set (E1 := [p_code st; p_decode st; p_code1 st; p_code2 st]) in *.
  set (d' := mkNdr (Z.of_nat (length bs)) (d_max d) (d_offset d) (Z.of_nat (length bs))) in *.
  assert (D' : ndr_ok d') by (destruct D as (_ & D1 & D2 & _); unfold ndr_ok, u32_ok; cbn; unfold u32_ok in *; lia).
  assert (L1 : length E1 = 4%nat) by reflexivity.
  rewrite !app_length, endr_length, L1 in Ln. unfold connect_rsp.
  assert (X1 : enc (put_pnet_status true st) E1) by (apply enc_pnio; exact S1). rewrite X1 by lia. cbn [obind].
  rewrite (enc_ndr true d D) by (rewrite ?endr_length, ?put_at_length; lia). cbn [obind].
  assert (LA : length (put_at b (Z.to_nat pos) E1) = length b) by (apply put_at_length; lia).
  rewrite B; [|lia|rewrite endr_length; lia|rewrite put_at_length by (rewrite ?endr_length; lia); lia|exact N]. cbn [obind w_pos w_buf w_len].
  replace (pos + Z.of_nat (length E1) + Z.of_nat (length (endr true d)) + Z.of_nat (length bs) - (pos + Z.of_nat (length E1) + Z.of_nat (length (endr true d)))) with (Z.of_nat (length bs)) by lia.
  rewrite u32_id by lia. fold d'.
  replace (Z.to_nat (pos + Z.of_nat (length E1) + Z.of_nat (length (endr true d)))) with (Z.to_nat pos + length (E1 ++ endr true d))%nat by (rewrite app_length; lia).
  replace (Z.to_nat (pos + Z.of_nat (length E1))) with (Z.to_nat pos + length E1)%nat by lia.
  rewrite put_at_app by (rewrite ?endr_length; lia). rewrite put_at_app by (rewrite app_length, endr_length; lia). rewrite <- app_assoc.
  rewrite (enc_ndr true d' D') by (rewrite ?endr_length, ?put_at_length; rewrite ?app_length, ?endr_length; lia).
  cbn [obind w_buf w_len]. replace (Z.to_nat (pos + Z.of_nat (length E1))) with (Z.to_nat pos + length E1)%nat by lia.
  rewrite put_at_over by (rewrite ?app_length, ?endr_length; lia). f_equal. f_equal. rewrite !app_length, !endr_length. lia.
Qed.

(** * What the controller reads *)

Definition total (l : list block) : nat := list_sum (map size l).
Lemma eb_total : forall be l, Forall bok l -> length (flat_map (eb be) l) = total (map view l).
Proof.
  intros be l F. unfold total. induction F as [|x l O F IH]; [reflexivity|]. cbn [flat_map map list_sum fold_right]. rewrite app_length, (eb_length be x O), IH. reflexivity.
Qed.
Lemma dec_blocks : forall l, Forall bok l -> Z.of_nat (total (map view l)) < 65536 ->
  dec true true (fun r => until get_one (total (map view l)) (r_pos r + Z.of_nat (total (map view l))) r) (flat_map (eb true) l) (map (fun x => Some (view x)) l).
Proof.
  intros l F T pre post len A B C. cbn [r_pos]. pose proof (eb_total true l F) as E. rewrite <- E.
  replace (Z.of_nat (length pre) + Z.of_nat (length (flat_map (eb true) l))) with (Z.of_nat (length pre + length (flat_map (eb true) l))) by lia.
  rewrite Forall_forall in F. assert (NE : forall x, In x l -> eb true x <> []).
  { intros x I Q. pose proof (eb_length true x (F x I)) as L. rewrite Q in L. cbn [length] in L.
    destruct x as [t u k m p|a b c|a b c|d|p|s|a i s]; cbn [view size] in L; try (exfalso; lia);
      [pose proof (up4_spec (8 + length s))|pose proof (up4_spec (16 + length s))]; lia. }
  refine (dec_until block (option block) true get_one (eb true) (fun x => Some (view x)) l _ _ _ pre post len _ B C).
  - intros x I. split; [apply dec_eb; exact (F x I)|exact (NE x I)].
  - clear -NE. induction l as [|x l IH]; [apply le_n|]. cbn [flat_map length]. rewrite app_length.
    pose proof (NE x (or_introl eq_refl)). specialize (IH (fun y I => NE y (or_intror I))). destruct (eb true x); [contradiction|]. cbn [length]. lia.
  - lia.
Qed.
Lemma dec_rsp : forall st d l bs, ndr_ok d -> bs = flat_map (eb true) l -> Forall bok l -> d_count d = Z.of_nat (total (map view l)) -> Z.of_nat (total (map view l)) < 65536 ->
  dec true true get_rsp ([p_code st; p_decode st; p_code1 st; p_code2 st] ++ endr true d ++ bs)
    (mkRsp st (d_args d) (d_max d) (d_offset d) (d_count d) (map (fun x => Some (view x)) l)).
Proof.
  intros st d l bs (D1 & D2 & D3 & D4) -> F C T. unfold get_rsp, endr, u32_ok in *. rewrite <- !app_assoc.
  apply (dec_bind _ _ true true true _ _ _ _ _ _ (dec_pnio true st)). repeat (eapply dec_bind; [apply dec_u32; assumption|]).
  rewrite <- (app_nil_r (flat_map (eb true) l)). eapply dec_bind; [|apply dec_ret]. rewrite C, Nat2Z.id. apply dec_blocks; assumption.
Qed.

(** C120, a connection in memory to the controller: if the blocks fit, the controller reads the
    status, the length of the blocks, the maximum and offset of its request, and the blocks of
    the connection in order; nothing outside the response is written.  Missing: differences
    with missing modules (C114), little-endian requests (C28), and a response that is too
    small ([C120_hang_refuted]). *)
Theorem C120_read_partial : forall fuel st d c, (3 <= fuel)%nat -> pnio_ok st -> ndr_ok d -> con_ok c -> let n := total (says c) in Z.of_nat n < 65536 ->
  round_trip true true (connect_rsp fuel true st d (Some c)) get_rsp (mkRsp st (Z.of_nat n) (d_max d) (d_offset d) (Z.of_nat n) (map Some (says c))) (20 + n).
Proof.
  intros fuel st d c F S1 D O n N. subst n. pose proof (con_raw_ok c O) as R. pose proof (eb_total true (raw c) R) as E. rewrite raw_says in E.
  pose proof (enc_rsp fuel st d (Some c) _ S1 D (enc_blocks fuel true c F O) ltac:(rewrite E; exact N)) as EN. rewrite E in EN.
  assert (D' : ndr_ok (mkNdr (Z.of_nat (total (says c))) (d_max d) (d_offset d) (Z.of_nat (total (says c))))).
  { destruct D as (_ & D1 & D2 & _). unfold ndr_ok, u32_ok in *. cbn [d_args d_max d_offset d_count]. lia. }
  pose proof (dec_rsp st _ (raw c) _ D' eq_refl R) as DE. cbn [d_count d_args d_max d_offset] in DE. rewrite raw_says in DE. specialize (DE eq_refl N).
  rewrite <- map_map, raw_says in DE. pose proof (rt_of _ _ _ _ _ _ _ EN DE) as RT. rewrite !app_length, endr_length, E in RT. exact RT.
Qed.
Print Assumptions C120_read_partial.

(** C120: a refused request is told the status, and no blocks. *)
Theorem C120_refused : forall fuel st d, pnio_ok st -> ndr_ok d ->
  round_trip true true (connect_rsp fuel true st d None) get_rsp (mkRsp st 0 (d_max d) (d_offset d) 0 []) 20.
Proof.
  intros fuel st d S1 D. pose proof (enc_rsp fuel st d None [] S1 D enc_skip ltac:(cbn; lia)) as EN. cbn [length Z.of_nat] in EN.
  assert (D' : ndr_ok (mkNdr 0 (d_max d) (d_offset d) 0)) by (destruct D as (_ & D1 & D2 & _); unfold ndr_ok, u32_ok in *; cbn [d_args d_max d_offset d_count]; lia).
  pose proof (dec_rsp st _ [] [] D' eq_refl (Forall_nil _) eq_refl ltac:(cbn; lia)) as DE. cbn [d_count d_args d_max d_offset map] in DE.
  pose proof (rt_of _ _ _ _ _ _ _ EN DE) as RT. rewrite !app_length, endr_length in RT. exact RT.
Qed.
Print Assumptions C120_refused.

(** The numbers of a request. *)
Definition creq_ok (q : creq) : Prop :=
  u16_ok (rq_type q) /\ uuid_ok (rq_uuid q) /\ u16_ok (rq_key q) /\ u16_ok (rq_alarm q) /\
  Forall (fun x : Z * crparam => u16_ok (fst x) /\ u16_ok (p_type (snd x)) /\ u16_ok (p_fid (snd x)) /\ (open_id (snd x) -> 1 <= p_class (snd x) <= 4)) (rq_crs q) /\
  Forall (fun v : Z * Z => u32_ok (fst v) /\ u32_ok (snd v)) (rq_vendors q).
(** The frame ids of the relations [l], with the ids [others] of other connections: as
    requested; those left open: of their class, and different from all others. *)
Definition frames (others : list Z) (l : list (Z * crparam)) (fs : list Z) : Prop :=
  length fs = length l /\ forall k r p f, nth_error l k = Some (r, p) -> nth_error fs k = Some f ->
    (~ open_id p -> f = p_fid p) /\
    (open_id p -> class_id (p_class p) f /\ ~ In f others /\ forall j g, j <> k -> nth_error fs j = Some g -> g <> f).
(** The blocks an accepted request is answered with. *)
Definition answer (mac name : list Z) (r : Z) (fs : list Z) (diff : list dapi) (q : creq) : list block :=
  [BAr (rq_type q) (rq_uuid q) (rq_key q) mac 34962] ++
  map (fun x : (Z * crparam) * Z => BIocr (p_type (snd (fst x))) (fst (fst x)) (snd x)) (combine (rq_crs q) fs) ++
  [BAlarm (rq_alarm q) r 200] ++
  (match diff with [] => [] | _ => [BDiff (map shown diff)] end) ++
  (if rq_rpc q then [BRpc 0] else []) ++
  (if rq_adv q then BServer name :: map (fun v => BVendor (fst v) (snd v) []) (rq_vendors q) else []).

Lemma fixed : forall others l, (forall x, In x l -> open_id (snd x) -> 1 <= p_class (snd x) <= 4) -> Z.of_nat (length others + length l) < 14336 ->
  exists ps, fix_ids others [] (map (@snd Z crparam) l) = Some ps /\ frames others l (map p_fid ps) /\
    Forall2 (fun x p => p_type p = p_type (snd x) /\ (p_fid p = p_fid (snd x) \/ 256 <= p_fid p < 65536)) l ps.
Proof.
  intros others l C N. destruct (C88_partial others (map snd l)) as (ps & E & L & H).
  { intros p I. apply in_map_iff in I. destruct I as (x & <- & I). exact (C x I). }
  { rewrite map_length. exact N. }
  rewrite map_length in L. exists ps. split; [exact E|].
  assert (G : forall k p', nth_error ps k = Some p' -> exists x, nth_error l k = Some x /\ p_type p' = p_type (snd x) /\ (~ open_id (snd x) -> p' = snd x) /\
    (open_id (snd x) -> class_id (p_class (snd x)) (p_fid p') /\ ~ In (p_fid p') others /\ forall j q, j <> k -> nth_error ps j = Some q -> p_fid q <> p_fid p')).
  { intros k p' K. destruct (nth_error_split ps k K) as (l1 & l2 & Q & L1). destruct (H l1 p' l2 Q) as (p & P1 & P2 & P3). rewrite L1 in P1.
    rewrite nth_error_map in P1. destruct (nth_error l k) as [x|] eqn:EX; [|discriminate]. injection P1 as <-. exists x. split; [reflexivity|].
    split; [|split; [exact P2|]].
    - destruct (Z.eq_dec (p_type (snd x)) 2) as [T|T]; [destruct (Z.eq_dec (p_fid (snd x)) 65535) as [U|U]|].
      + destruct (P3 (conj T U)) as (-> & _). reflexivity.
      + rewrite P2; [reflexivity|]. intros (_ & X). contradiction.
      + rewrite P2; [reflexivity|]. intros (X & _). contradiction.
    - intros O. destruct (P3 O) as (_ & A & B & D). split; [exact A|]. split; [exact B|]. intros j q J K2 W. apply D. rewrite <- W. apply in_map. rewrite Q in K2.
      destruct (Nat.lt_ge_cases j (length l1)) as [J1|J1].
      + rewrite nth_error_app1 in K2 by exact J1. apply in_or_app. left. exact (nth_error_In _ _ K2).
      + rewrite nth_error_app2 in K2 by exact J1. destruct (j - length l1)%nat as [|m] eqn:M; [lia|]. cbn [nth_error] in K2. apply in_or_app. right. exact (nth_error_In _ _ K2). }
  split.
  - split; [rewrite map_length; exact L|]. intros k r p f K1 K2. rewrite nth_error_map in K2. destruct (nth_error ps k) as [p'|] eqn:KP; [|discriminate]. injection K2 as <-.
    destruct (G k p' KP) as (x & X1 & X2 & X3 & X4). rewrite K1 in X1. injection X1 as <-. cbn [snd] in *. split; [intros O; rewrite (X3 O); reflexivity|].
    intros O. destruct (X4 O) as (A & B & D). split; [exact A|]. split; [exact B|]. intros j g J K3. rewrite nth_error_map in K3. destruct (nth_error ps j) as [q|] eqn:KQ; [|discriminate]. injection K3 as <-. exact (D j q J KQ).
  - assert (G2 : forall k p', nth_error ps k = Some p' -> exists x, nth_error l k = Some x /\ p_type p' = p_type (snd x) /\ (p_fid p' = p_fid (snd x) \/ 256 <= p_fid p' < 65536)).
    { intros k p' K. destruct (G k p' K) as (x & X1 & X2 & X3 & X4). exists x. split; [exact X1|]. split; [exact X2|].
      destruct (Z.eq_dec (p_type (snd x)) 2) as [T|T]; [destruct (Z.eq_dec (p_fid (snd x)) 65535) as [U|U]|].
      - right. destruct (X4 (conj T U)) as (A & _). unfold class_id in A. lia.
      - left. rewrite X3; [reflexivity|]. intros (_ & X). contradiction.
      - left. rewrite X3; [reflexivity|]. intros (X & _). contradiction. }
    clear -G2 L. revert l L G2. induction ps as [|p ps IH]; intros [|x l] L G2; try discriminate; [constructor|]. destruct (G2 0%nat p eq_refl) as (y & Y1 & Y2). injection Y1 as <-.
    constructor; [exact Y2|]. apply IH; [cbn in L; lia|]. intros k p' K. exact (G2 (S k) p' K).
Qed.

Lemma listed_crs : forall (l : list (Z * crparam)) ps, Forall2 (fun x p => p_type p = p_type (snd x) /\ (p_fid p = p_fid (snd x) \/ 256 <= p_fid p < 65536)) l ps ->
  map (fun x : Z * Z * Z => BIocr (fst (fst x)) (snd (fst x)) (snd x)) (map (fun x : (Z * crparam) * crparam => (p_type (snd x), fst (fst x), p_fid (snd x))) (combine l ps))
  = map (fun x : (Z * crparam) * Z => BIocr (p_type (snd (fst x))) (fst (fst x)) (snd x)) (combine l (map p_fid ps)) /\
  (Forall (fun x : Z * crparam => u16_ok (fst x) /\ u16_ok (p_type (snd x)) /\ u16_ok (p_fid (snd x)) /\ (open_id (snd x) -> 1 <= p_class (snd x) <= 4)) l ->
    Forall three_ok (map (fun x : (Z * crparam) * crparam => (p_type (snd x), fst (fst x), p_fid (snd x))) (combine l ps))).
Proof.
  intros l ps F. induction F as [|x p l ps (T & D) F (IH1 & IH2)]; [split; [reflexivity|intros _; constructor]|]. split.
  - cbn [combine map fst snd]. rewrite IH1, T. reflexivity.
  - intros Q. apply Forall_cons_iff in Q. destruct Q as ((Q1 & Q2 & Q3 & _) & Q). cbn [combine map]. constructor; [|exact (IH2 Q)].
    unfold three_ok, u16_ok in *. cbn [fst snd] in *. rewrite T. split; [exact Q2|]. split; [exact Q1|]. destruct D as [->|D]; [exact Q3|lia].
Qed.

(** C120 with C88, C113 and C114, from the request to the controller: for every history of the
    device, every configuration whose modules are all plugged, every request and all frame ids
    of other connections.  Missing: as for [C120_read_partial], and relations of class 5. *)
Theorem C120_told_partial : forall na ns nt h me i mac name r others q fuel st d, (0 < na)%nat -> sizes na ns nt i -> conf_ok (conf i) ->
  all_there (run na ns nt h) (conf i) -> creq_ok q -> length mac = 6%nat -> (length name <= 240)%nat -> u16_ok r -> Z.of_nat (length others + length (rq_crs q)) < 14336 ->
  (3 <= fuel)%nat -> pnio_ok st -> ndr_ok d ->
  exists i' c fs, module_diff me (run na ns nt h) i = Ok i' /\ results mac name r others i' q = Some c /\ frames others (rq_crs q) fs /\
    let l := answer mac name r fs (compare (run na ns nt h) me (conf i)) q in
    let n := total l in
    Z.of_nat n < 65536 ->
    round_trip true true (connect_rsp fuel true st d (Some c)) get_rsp (mkRsp st (Z.of_nat n) (d_max d) (d_offset d) (Z.of_nat n) (map Some l)) (20 + n).
Proof.
  intros na ns nt h me i mac name r others q fuel st d P SZ C T (Q1 & Q2 & Q3 & Q4 & Q5 & Q6) M NM R N F S1 D.
  assert (FI : fits (run na ns nt h) (conf i)).
  { intros x I. destruct (T x I) as [T1 T2]. split; [exact T1|]. intros s id subs J. right. exact (T2 s id subs J). }
  destruct (C113_listed_partial na ns nt h me i P SZ) as (i' & E & _ & _ & PA & L). rewrite fits_seen in L by exact FI.
  destruct (fixed others (rq_crs q)) as (ps & FX & FR & TY).
  { intros x I. rewrite Forall_forall in Q5. exact (proj2 (proj2 (proj2 (Q5 x I)))). }
  { exact N. }
  destruct (listed_crs _ _ TY) as (LC & TC). specialize (TC Q5).
  exists i'. unfold results. rewrite FX. eexists. exists (map p_fid ps). split; [exact E|]. split; [reflexivity|]. split; [exact FR|]. cbn zeta. rewrite <- L.
  set (c := mkCon _ _ _ _ _ _ _ _ _ _ _ _).
  assert (SA : says c = answer mac name r (map p_fid ps) (listing i') q).
  { unfold says, answer, c. cbn [co_type co_uuid co_key co_mac co_port co_crs co_alarm co_diff co_rpc co_adv co_name co_vendors fst snd]. rewrite LC. destruct (rq_rpc q), (rq_adv q), (listing i'); rewrite ?map_map; reflexivity. }
  rewrite <- SA. intros SM. apply C120_read_partial; try assumption. unfold con_ok, c.
  cbn [co_type co_uuid co_key co_mac co_port co_crs co_alarm co_diff co_rpc co_adv co_name co_vendors].
  split; [exact Q1|]. split; [exact Q2|]. split; [exact Q3|]. split; [exact M|]. split; [unfold u16_ok; lia|]. split; [exact TC|].
  split; [unfold three_ok, u16_ok in *; cbn [fst snd]; lia|]. split; [exact PA|]. split; [rewrite L; apply compare_ok; exact C|].
  split; [rewrite L; apply all_there_none_missing; exact T|]. split; [|split; [|split; [exact NM|]]].
  - rewrite SA in SM. unfold answer, total in SM. rewrite !map_app, !list_sum_app in SM. destruct (listing i') as [|z l'] eqn:EL; [cbn; lia|].
    pose proof (block_size_shown (z :: l')) as BS. cbn [map] in BS. cbn [map list_sum fold_right size] in SM. lia.
  - intros p. destruct (rq_rpc q); [|discriminate]. intros X. injection X as <-. unfold u16_ok. lia.
  - apply Forall_forall. intros v I. apply in_map_iff in I. destruct I as (v' & <- & I). cbn [vd_ap vd_api vd_data length]. rewrite Forall_forall in Q6. destruct (Q6 v' I). split; [assumption|]. split; [assumption|]. lia.
Qed.
Print Assumptions C120_told_partial.

(** * Responses that are too small *)

Lemma inside_each : forall A (f : A -> writer) l, (forall x, stays_inside (f x)) -> stays_inside (each f l).
Proof. intros A f l H. induction l as [|x l IH]; [exact inside_skip|]. cbn [each]. apply inside_seq; [apply H|exact IH]. Qed.
Lemma inside_ndr : forall be d, stays_inside (put_ndr be d).
Proof. intros. unfold put_ndr. repeat (apply inside_seq; [apply inside_u32|]). apply inside_u32. Qed.

(** C120: without advanced startup, no byte outside the response is written, whatever its size. *)
Theorem C120_inside : forall fuel be st d o, (forall c, o = Some c -> co_adv c = false /\ pointing_all (co_diff c)) -> stays_inside (connect_rsp fuel be st d o).
Proof.
  intros fuel be st d o H. assert (B : stays_inside (match o with Some c => put_blocks fuel be c | None => wskip end)).
  { destruct o as [c|]; [|exact inside_skip]. destruct (H c eq_refl) as (A & PA). unfold put_blocks, put_ar_result, put_alarm_cr_result, put_ar_rpc_result. rewrite A.
    apply inside_seq; [apply inside_block; refine (inside_seq _ _ (inside_u16 _ _) _); refine (inside_seq _ _ (inside_uuid _ _) _); refine (inside_seq _ _ (inside_u16 _ _) _); refine (inside_seq _ _ (inside_mem _) _); apply inside_u16|].
    apply inside_seq; [apply inside_each; intros x; apply inside_block; refine (inside_seq _ _ (inside_u16 _ _) _); refine (inside_seq _ _ (inside_u16 _ _) _); apply inside_u16|].
    apply inside_seq; [apply inside_block; refine (inside_seq _ _ (inside_u16 _ _) _); refine (inside_seq _ _ (inside_u16 _ _) _); apply inside_u16|].
    apply inside_seq; [destruct (0 <? xi_nd (co_diff c))%nat; [apply C114_inside; exact PA|exact inside_skip]|].
    apply inside_seq; [destruct (co_rpc c); [apply inside_block; apply inside_u16|exact inside_skip]|exact inside_skip]. }
  intros b len pos P L N. unfold connect_rsp.
  destruct (inside_u32 be (u32 (16777216 * p_code st + 65536 * p_decode st + 256 * p_code1 st + p_code2 st)) b len pos P L N) as (b1 & p1 & E1 & Q1 & L1 & K1).
  unfold put_pnet_status. rewrite E1. cbn [obind w_pos].
  destruct (inside_ndr be d b1 len p1 ltac:(lia) ltac:(lia) N) as (b2 & p2 & E2 & Q2 & L2 & K2). rewrite E2. cbn [obind w_pos].
  destruct (B b2 len p2 ltac:(lia) ltac:(lia) N) as (b3 & p3 & E3 & Q3 & L3 & K3). rewrite E3. cbn [obind w_pos w_buf w_len].
  destruct (inside_ndr be (mkNdr (u32 (p3 - p2)) (d_max d) (d_offset d) (u32 (p3 - p2))) b3 len p1 ltac:(lia) ltac:(lia) N) as (b4 & p4 & E4 & Q4 & L4 & K4). rewrite E4. cbn [obind w_buf w_len].
  exists b4, p3. split; [reflexivity|]. split; [lia|]. split; [congruence|]. intros i I.
  rewrite K4, K3, K2, K1; [reflexivity| | | |]; destruct I; lia.
Qed.
Print Assumptions C120_inside.

Lemma byte_at : forall v b len pos, 0 <= pos <= len -> len <= Z.of_nat (length b) -> len < 65536 -> exists b', put_byte v (mkWr (Some b) len pos) = Ok (mkWr (Some b') len (Z.min len (pos + 1))) /\ length b' = length b.
Proof.
  intros v b len pos P L N. destruct (Z_lt_ge_dec len (pos + 1)) as [H|H].
  - exists b. split; [|reflexivity]. unfold put_byte. cbn [w_len w_pos w_buf]. destruct (Z.ltb_spec len (pos + 1)); [|lia]. f_equal. f_equal. lia.
  - exists (put_at b (Z.to_nat pos) [u8 v]). split; [|apply put_at_length; cbn [length]; lia]. assert (E : enc (put_byte v) [u8 v]) by exact (enc_mem [u8 v]).
    rewrite E by (cbn [length]; lia). f_equal. f_equal. cbn [length]. lia.
Qed.
Lemma bytes_seq : forall f g (m n : Z), 0 <= m -> 0 <= n ->
  (forall b len pos, 0 <= pos <= len -> len <= Z.of_nat (length b) -> len < 65536 -> exists b', f (mkWr (Some b) len pos) = Ok (mkWr (Some b') len (Z.min len (pos + m))) /\ length b' = length b) ->
  (forall b len pos, 0 <= pos <= len -> len <= Z.of_nat (length b) -> len < 65536 -> exists b', g (mkWr (Some b) len pos) = Ok (mkWr (Some b') len (Z.min len (pos + n))) /\ length b' = length b) ->
  (forall b len pos, 0 <= pos <= len -> len <= Z.of_nat (length b) -> len < 65536 -> exists b', (f ;; g) (mkWr (Some b) len pos) = Ok (mkWr (Some b') len (Z.min len (pos + (m + n)))) /\ length b' = length b).
Proof.
  intros f g m n M N F G b len pos P L S. unfold wseq. destruct (F b len pos P L S) as (b1 & E1 & L1). rewrite E1. cbn [obind].
  destruct (G b1 len (Z.min len (pos + m)) ltac:(lia) ltac:(lia) S) as (b2 & E2 & L2). exists b2. rewrite E2. split; [|congruence]. f_equal. f_equal. lia.
Qed.
Lemma u16_at : forall be v b len pos, 0 <= pos <= len -> len <= Z.of_nat (length b) -> len < 65536 -> exists b', put_u16 be v (mkWr (Some b) len pos) = Ok (mkWr (Some b') len (Z.min len (pos + 2))) /\ length b' = length b.
Proof. intros be v. unfold put_u16. destruct be; refine (bytes_seq _ _ 1 1 ltac:(lia) ltac:(lia) (byte_at _) (byte_at _)). Qed.
Lemma server_hangs : forall fuel be name b len pos k, In k [1; 2; 3; 5; 6; 7] -> 0 <= pos -> len = pos + k -> len <= Z.of_nat (length b) -> len < 65536 ->
  put_ar_server_result fuel be name (mkWr (Some b) len pos) = AssertFail.
Proof.
  intros fuel be name b len pos k K P -> L N. assert (KR : 1 <= k <= 7 /\ k mod 4 <> 0) by (cbn [In] in K; destruct K as [<-|[<-|[<-|[<-|[<-|[<-|[]]]]]]]; (split; [lia|discriminate])).
  unfold put_ar_server_result, put_block. cbn [w_pos].
  destruct (bytes_seq _ _ 2 4 ltac:(lia) ltac:(lia) (u16_at be 33030) (bytes_seq _ _ 2 2 ltac:(lia) ltac:(lia) (u16_at be (u16 (0 + 6 - 4))) (bytes_seq _ _ 1 1 ltac:(lia) ltac:(lia) (byte_at 1) (byte_at 0)))
    b (pos + k) pos ltac:(lia) L N) as (b1 & E1 & L1).
  assert (EH : put_block_header be 33030 0 1 0 (mkWr (Some b) (pos + k) pos) = Ok (mkWr (Some b1) (pos + k) (Z.min (pos + k) (pos + (2 + 4))))) by exact E1.
  unfold wseq. rewrite EH. cbn [obind]. destruct (u16_at be (u16 (Z.of_nat (length name))) b1 (pos + k) (Z.min (pos + k) (pos + (2 + 4))) ltac:(lia) ltac:(lia) N) as (b2 & E2 & L2).
  rewrite E2. cbn [obind]. replace (Z.min (pos + k) (Z.min (pos + k) (pos + (2 + 4)) + 2)) with (pos + k) by lia.
  assert (EM : exists b3, put_mem name (mkWr (Some b2) (pos + k) (pos + k)) = Ok (mkWr (Some b3) (pos + k) (pos + k)) /\ length b3 = length b2).
  { unfold put_mem. cbn [w_len w_pos w_buf]. destruct (Z.ltb_spec (pos + k) (pos + k + Z.of_nat (length name))).
    - exists b2. split; reflexivity.
    - exists (put_at b2 (Z.to_nat (pos + k)) name). split; [|apply put_at_length; lia]. assert (Z0 : length name = 0%nat) by lia.
      pose proof (enc_mem name b2 (pos + k) (pos + k) ltac:(lia) ltac:(lia) ltac:(lia) N) as EM. unfold put_mem in EM. cbn [w_len w_pos w_buf] in EM.
      destruct (Z.ltb_spec (pos + k) (pos + k + Z.of_nat (length name))); [lia|]. rewrite EM. f_equal. f_equal. lia. }
  destruct EM as (b3 & E3 & L3). rewrite E3. cbn [obind]. unfold align. rewrite C46_no_room_never_ends; [reflexivity|lia|lia|lia|lia|lia|].
  intros p Q. replace p with (pos + k) by lia. replace (pos + k - pos) with k by lia. apply KR.
Qed.

Definition legacy (c : con) : con :=
  mkCon (co_type c) (co_uuid c) (co_key c) (co_mac c) (co_port c) (co_crs c) (co_alarm c) (co_diff c) (co_rpc c) false (co_name c) (co_vendors c).
Lemma blocks_split : forall fuel be c w, co_adv c = true ->
  put_blocks fuel be c w = (put_blocks fuel be (legacy c) ;; (put_ar_server_result fuel be (co_name c) ;; each (put_ar_vendor_result fuel be) (co_vendors c))) w.
Proof.
  intros fuel be c w A. unfold put_blocks, legacy. cbn [co_type co_uuid co_key co_mac co_port co_crs co_alarm co_diff co_rpc co_adv co_name co_vendors]. rewrite A. unfold wseq, put_ar_result.
  cbn [co_type co_uuid co_key co_mac co_port].
  match goal with |- obind ?x _ = _ => destruct x as [w1| |]; [|reflexivity|reflexivity] end. cbn [obind].
  match goal with |- obind ?x _ = _ => destruct x as [w2| |]; [|reflexivity|reflexivity] end. cbn [obind].
  match goal with |- obind ?x _ = _ => destruct x as [w3| |]; [|reflexivity|reflexivity] end. cbn [obind].
  match goal with |- obind ?x _ = _ => destruct x as [w4| |]; [|reflexivity|reflexivity] end. cbn [obind].
  match goal with |- obind ?x _ = _ => destruct x as [w5| |]; [|reflexivity|reflexivity] end. reflexivity.
Qed.

(** C120: the size of the response is the controller's choice.  If it ends 1-3 or 5-7 bytes
    behind the start of the block with the station name, the device never finishes the
    response, for every connection with advanced startup. *)
Theorem C120_hang_refuted : forall st d c k b len pos, pnio_ok st -> ndr_ok d -> con_ok c -> co_adv c = true -> In k [1; 2; 3; 5; 6; 7] ->
  0 <= pos -> len = pos + 20 + Z.of_nat (total (says (legacy c))) + k -> len <= Z.of_nat (length b) -> len < 65536 ->
  forall fuel, connect_rsp fuel true st d (Some c) (mkWr (Some b) len pos) = AssertFail.
Proof.
  intros st d c k b len pos S1 D O A K P -> L N fuel. assert (KR : 1 <= k <= 7) by (cbn [In] in K; lia).
  assert (O' : con_ok (legacy c)) by exact O. set (n := total (says (legacy c))) in *.
  pose proof (con_raw_ok _ O') as R. pose proof (eb_total true _ R) as E. rewrite raw_says in E. fold n in E.
  unfold connect_rsp. assert (X1 : enc (put_pnet_status true st) [p_code st; p_decode st; p_code1 st; p_code2 st]) by (apply enc_pnio; exact S1).
  rewrite X1 by (cbn [length]; lia). cbn [obind].
  rewrite (enc_ndr true d D) by (rewrite ?endr_length, ?put_at_length; cbn [length]; lia). cbn [obind]. rewrite blocks_split by exact A. unfold wseq at 1.
  assert (EB : enc (put_blocks fuel true (legacy c)) (flat_map (eb true) (raw (legacy c)))).
  { replace (put_blocks fuel true (legacy c)) with (put_blocks 3 true (legacy c)) by reflexivity. apply enc_blocks; [lia|exact O']. }
  rewrite EB; [|cbn [length]; lia|rewrite endr_length; cbn [length]; lia|rewrite !put_at_length by (rewrite ?put_at_length; rewrite ?endr_length; cbn [length]; lia); lia|exact N].
  cbn [obind]. unfold wseq. rewrite (server_hangs fuel true (co_name c) _ _ _ k K); [reflexivity|rewrite endr_length; cbn [length]; lia|rewrite endr_length, E; cbn [length]; lia| |exact N].
  rewrite !put_at_length by (rewrite ?put_at_length; rewrite ?put_at_length; rewrite ?endr_length, ?E; cbn [length]; lia). lia.
Qed.
Print Assumptions C120_hang_refuted.

(** * An example, and a response that is cut off *)

Definition ex_req : creq := mkCreq 1 (mkUuid 1 2 3 [4; 5; 6; 7; 8; 9; 10; 11]) 77 [(1, ex_in); (2, ex_out)] 1 true true [(5, 6)].
(** The hypotheses of [C120_told_partial] are met, and the answer has a block of each type. *)
Example C120_example : sizes 1 2 5 (expecting 1 2 5 ex_there) /\ conf_ok ex_there /\ all_there (run 1 2 5 ex_history) ex_there /\ creq_ok ex_req /\
  exists i' c, module_diff 0 (run 1 2 5 ex_history) (expecting 1 2 5 ex_there) = Ok i' /\
    results [2; 0; 0; 0; 0; 9] [100; 101; 118] 3 [49152; 49154] i' ex_req = Some c /\ co_crs c = [(p_type ex_in, 1, p_fid ex_in); (2, 2, 49155)] /\
    length (says c) = 8%nat /\ total (says c) = 162%nat /\ total (says (legacy c)) = 134%nat.
Proof.
  destruct C114_example as (A & B & C & _). split; [exact A|]. split; [exact B|]. split; [exact C|]. split.
  - unfold creq_ok, ex_req, u16_ok, u32_ok, uuid_ok. cbn.
    split; [lia|]. split; [repeat split; lia|]. split; [lia|]. split; [lia|]. split; [|repeat constructor; cbn; lia].
    constructor; [|constructor; [|constructor]]; cbn; (split; [lia|]; split; [lia|]; split; [lia|]; intros _; lia).
  - eexists. eexists. split; [vm_compute; reflexivity|]. split; [vm_compute; reflexivity|]. repeat split.
Qed.

Definition ex_short : con :=
  mkCon 1 (mkUuid 1 2 3 [4; 5; 6; 7; 8; 9; 10; 11]) 77 [2; 0; 0; 0; 0; 9] 34962 [(1, 1, 49153); (2, 2, 49155)] (1, 3, 200) (expecting 1 2 5 []) None false [] [].

Lemma ex_short_ok : con_ok ex_short.
Proof.
  unfold con_ok, ex_short, u16_ok, uuid_ok, three_ok. cbn [co_type co_uuid co_key co_mac co_port co_crs co_alarm co_diff co_rpc co_adv co_name co_vendors u_d1 u_d2 u_d3 u_d4 length fst snd].
  split; [lia|]. split; [repeat split; lia|]. split; [lia|]. split; [reflexivity|]. split; [lia|].
  split; [repeat constructor; cbn [fst snd]; unfold u16_ok; lia|]. split; [unfold u16_ok; lia|].
  split; [split; [|intros a []]; split; [cbn; lia|intros k []]|]. split; [split; [cbn; lia|intros x []]|]. split; [intros x s id st e []|]. split; [cbn; lia|].
  split; [discriminate|]. split; [lia|constructor].
Qed.
(** C120: a response that does not fit is cut off and told as a success: the alarm relation
    has the reference 3 and the maximum 200, and the controller, whose response may have 86
    bytes, finds a shorter block without them and the end of the response. *)
Theorem C120_cut_refuted : con_ok ex_short /\ In (BAlarm 1 3 200) (says ex_short) /\
  exists b r, connect_rsp 3 true (mkPnio 0 0 0 0) (mkNdr 0 66 0 66) (Some ex_short) (mkWr (Some (repeat 0 200)) 86 0) = Ok (mkWr (Some b) 86 86) /\
    get_rsp (mkRd (Some b) 86 true POk 0) = Ok (r, mkRd (Some b) 86 true PEnd 86) /\
    s_status r = mkPnio 0 0 0 0 /\ s_count r = 66 /\ nth_error (s_blocks r) 3 = Some (Some (BAlarm 1 0 0)).
Proof.
  split; [exact ex_short_ok|]. split; [cbn; tauto|].
  eexists. eexists. split; [vm_compute; reflexivity|]. split; [vm_compute; reflexivity|]. repeat split.
Qed.
Print Assumptions C120_cut_refuted.

(** The request of such a connection: its header ends at 100, and it allows 76 bytes. *)
Definition ex_adv : con :=
  mkCon 1 (mkUuid 1 2 3 [4; 5; 6; 7; 8; 9; 10; 11]) 77 [2; 0; 0; 0; 0; 9] 34962 [(1, 1, 49153); (2, 2, 49155)] (1, 3, 200) (expecting 1 2 5 []) None true [] [].
Example C120_hang_example : forall fuel, connect_rsp fuel true (mkPnio 0 0 0 0) (mkNdr 0 76 0 76) (Some ex_adv) (mkWr (Some (repeat 0 1500)) (rsp_size 100 76 1500) 80) = AssertFail.
Proof.
  apply (C120_hang_refuted _ _ ex_adv 6); try reflexivity; try (rewrite repeat_length; vm_compute; discriminate); try lia.
  - unfold pnio_ok, byte. cbn. lia.
  - unfold ndr_ok, u32_ok. cbn. lia.
  - exact ex_short_ok.
  - cbn. tauto.
Qed.

(** C120: the response is never larger than the buffer of the session, and otherwise it has
    the size the controller allows behind the header. *)
Theorem C120_size : forall pos m size, 0 <= pos <= 65535 -> u32_ok m -> 0 <= size < 65536 ->
  0 <= rsp_size pos m size <= size /\ (pos + m <= size -> rsp_size pos m size = pos + m) /\ (size < pos + m < 4294967296 -> rsp_size pos m size = size).
Proof.
  intros pos m size P M S1. unfold rsp_size, u32_ok in *. cbn zeta. assert (U : 0 <= u32 (pos + m) < 4294967296) by (unfold u32; apply Z.mod_pos_bound; lia).
  destruct (Z.ltb_spec size (u32 (pos + m))) as [H|H].
  - split; [lia|]. split; [intros Q; rewrite u32_id in H by lia; lia|reflexivity].
  - rewrite u16_id by lia. split; [lia|]. split; [intros Q; apply u32_id; lia|]. intros Q. rewrite u32_id in H by lia. lia.
Qed.
Print Assumptions C120_size.
