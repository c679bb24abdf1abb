(** Block writer: what is written is read back (C28), writing stays inside the
    buffer (C28), alignment padding (C46). *)
From Coq Require Import List ZArith Arith Bool Lia.
From Verif Require Import Base CpmModel CpmProps PpmModel PpmProps BlockModel BlockReadLemmas BlockReadProps.
Import ListNotations.
Local Open Scope Z_scope.

(** * Encodings *)

Definition put_at (b : list Z) (p : nat) (bs : list Z) : list Z := firstn p b ++ bs ++ skipn (p + length bs) b.

Lemma put_at_length : forall b p bs, (p + length bs <= length b)%nat -> length (put_at b p bs) = length b.
Proof. intros b p bs H. unfold put_at. rewrite !app_length, firstn_length, skipn_length. lia. Qed.

Lemma skipn_skipn : forall (i j : nat) (l : list Z), skipn i (skipn j l) = skipn (j + i) l.
Proof. intros i j. induction j as [|j IH]; intros l; [reflexivity|]. destruct l; cbn; [apply skipn_nil|apply IH]. Qed.

Lemma put_at_app : forall b p x y, (p + length x + length y <= length b)%nat ->
  put_at (put_at b p x) (p + length x) y = put_at b p (x ++ y).
Proof.
  intros b p x y H. unfold put_at. rewrite app_length.
  assert (L : length (firstn p b) = p) by (rewrite firstn_length; lia).
  rewrite firstn_app, L. rewrite firstn_all2 by lia.
  replace (p + length x - p)%nat with (length x) by lia.
  rewrite firstn_app, Nat.sub_diag, firstn_all. cbn [firstn]. rewrite app_nil_r, <- !app_assoc. do 3 f_equal.
  rewrite skipn_app, L. rewrite (skipn_all2 (firstn p b)) by lia. cbn [app].
  replace (p + length x + length y - p)%nat with (length x + length y)%nat by lia.
  rewrite skipn_app. rewrite (skipn_all2 x) by lia. cbn [app].
  replace (length x + length y - length x)%nat with (length y) by lia. rewrite skipn_skipn.
  f_equal. lia.
Qed.

(** [enc f bs]: where there is room, [f] writes exactly the bytes [bs]. *)
Definition enc (f : writer) (bs : list Z) : Prop :=
  forall b len pos, 0 <= pos -> pos + Z.of_nat (length bs) <= len -> len <= Z.of_nat (length b) -> len < 65536 ->
  f (mkWr (Some b) len pos) = Ok (mkWr (Some (put_at b (Z.to_nat pos) bs)) len (pos + Z.of_nat (length bs))).

Lemma enc_skip : enc wskip [].
Proof.
  intros b len pos P L M N. unfold wskip, put_at. cbn [length app]. rewrite Nat.add_0_r, firstn_skipn, Z.add_0_r. reflexivity.
Qed.

Lemma enc_byte : forall v, byte v -> enc (put_byte v) [v].
Proof.
  intros v V b len pos P L M N. unfold put_byte. cbn [w_len w_pos w_buf]. cbn [length] in *.
  destruct (Z.ltb_spec len (pos + 1)); [lia|]. rewrite u8_id by exact V.
  rewrite poke_ok by (cbn [length]; lia). cbn [obind]. rewrite u16_id by lia. reflexivity.
Qed.

Lemma enc_mem : forall l, enc (put_mem l) l.
Proof.
  intros l b len pos P L M N. unfold put_mem. cbn [w_len w_pos w_buf].
  destruct (Z.ltb_spec len (pos + Z.of_nat (length l))); [lia|].
  rewrite poke_ok by lia. cbn [obind]. rewrite u16_id by lia. reflexivity.
Qed.

Lemma enc_seq : forall f g x y, enc f x -> enc g y -> enc (f ;; g) (x ++ y).
Proof.
  intros f g x y F G b len pos P L M N. unfold wseq. rewrite app_length in L.
  rewrite F by lia. cbn [obind]. rewrite G; try lia.
  - rewrite app_length. f_equal. f_equal; [|lia].
    replace (Z.to_nat (pos + Z.of_nat (length x))) with (Z.to_nat pos + length x)%nat by lia.
    rewrite put_at_app by lia. reflexivity.
  - rewrite put_at_length by lia. lia.
Qed.

Definition e16 (be : bool) (v : Z) : list Z := if be then [v / 256; v mod 256] else [v mod 256; v / 256].
Definition e32 (be : bool) (v : Z) : list Z :=
  if be then e16 true (v / 65536) ++ e16 true (v mod 65536) else e16 false (v mod 65536) ++ e16 false (v / 65536).

Lemma land255 : forall v, Z.land v 255 = v mod 256.
Proof. intros v. change 255 with (Z.ones 8). rewrite Z.land_ones by lia. reflexivity. Qed.

Lemma byte_mod : forall v, byte (v mod 256).
Proof. intros v. unfold byte. apply Z.mod_pos_bound. lia. Qed.

Lemma enc_u16 : forall be v, 0 <= v < 65536 -> enc (put_u16 be v) (e16 be v).
Proof.
  intros be v V. unfold put_u16, e16. rewrite !Z.shiftr_div_pow2 by lia. change (2 ^ 8) with 256.
  rewrite !land255.
  assert (E : (v / 256) mod 256 = v / 256) by (apply Z.mod_small; split; [apply Z.div_pos; lia|apply Z.div_lt_upper_bound; lia]).
  rewrite E. assert (B : byte (v / 256)) by (rewrite <- E; apply byte_mod).
  destruct be; [change [v / 256; v mod 256] with ([v / 256] ++ [v mod 256])|change [v mod 256; v / 256] with ([v mod 256] ++ [v / 256])];
    apply enc_seq; apply enc_byte; first [exact B|apply byte_mod].
Qed.

Lemma enc_u32 : forall be v, 0 <= v < 4294967296 -> enc (put_u32 be v) (e32 be v).
Proof.
  intros be v V. unfold put_u32, e32, e16. rewrite !Z.shiftr_div_pow2 by lia.
  change (2 ^ 8) with 256. change (2 ^ 16) with 65536. change (2 ^ 24) with 16777216. rewrite !land255.
  assert (A : v / 65536 / 256 = (v / 16777216) mod 256).
  { rewrite Z.div_div by lia. change (65536 * 256) with 16777216. symmetry. apply Z.mod_small.
    split; [apply Z.div_pos; lia|apply Z.div_lt_upper_bound; lia]. }
  assert (B : v mod 65536 / 256 = (v / 256) mod 256).
  { pose proof (Z.div_mod v 65536 ltac:(lia)). pose proof (Z.mod_pos_bound v 65536 ltac:(lia)).
    pose proof (Z.div_mod (v mod 65536) 256 ltac:(lia)). pose proof (Z.mod_pos_bound (v mod 65536) 256 ltac:(lia)).
    apply (Z.mod_unique (v / 256) 256 (v / 65536)); [left; split; [apply Z.div_pos; lia|apply Z.div_lt_upper_bound; lia]|].
    symmetry. apply (Z.div_unique v 256 _ ((v mod 65536) mod 256)); lia. }
  assert (C : (v mod 65536) mod 256 = v mod 256).
  { rewrite <- Znumtheory.Zmod_div_mod; try lia. exists 256. reflexivity. }
  rewrite A, B, C.
  destruct be; cbn [app].
  - change [(v / 16777216) mod 256; (v / 65536) mod 256; (v / 256) mod 256; v mod 256] with
      ([(v / 16777216) mod 256] ++ [(v / 65536) mod 256] ++ [(v / 256) mod 256] ++ [v mod 256]).
    repeat (apply enc_seq; [apply enc_byte; apply byte_mod|]). apply enc_byte; apply byte_mod.
  - change [v mod 256; (v / 256) mod 256; (v / 65536) mod 256; (v / 16777216) mod 256] with
      ([v mod 256] ++ [(v / 256) mod 256] ++ [(v / 65536) mod 256] ++ [(v / 16777216) mod 256]).
    repeat (apply enc_seq; [apply enc_byte; apply byte_mod|]). apply enc_byte; apply byte_mod.
Qed.

Lemma e16_length : forall be v, length (e16 be v) = 2%nat.
Proof. destruct be; reflexivity. Qed.
Lemma e32_length : forall be v, length (e32 be v) = 4%nat.
Proof. destruct be; reflexivity. Qed.

(** * Decodings *)

(** [dec be be' m bs v]: on the bytes [bs], in byte order [be], [m] delivers [v],
    moves behind them and leaves the byte order [be']. *)
Definition dec {A} (be be' : bool) (m : reader A) (bs : list Z) (v : A) : Prop :=
  forall pre post len, Z.of_nat (length pre + length bs) <= len -> len <= Z.of_nat (length (pre ++ bs ++ post)) -> len < 65536 ->
  m (mkRd (Some (pre ++ bs ++ post)) len be POk (Z.of_nat (length pre)))
  = Ok (v, mkRd (Some (pre ++ bs ++ post)) len be' POk (Z.of_nat (length pre + length bs))).

Lemma dec_ret : forall A be (a : A), dec be be (rret a) [] a.
Proof. intros A be a pre post len L M N. unfold rret. cbn [app length]. rewrite Nat.add_0_r. reflexivity. Qed.

Lemma dec_bind : forall A B be be' be'' (m : reader A) (k : A -> reader B) x y a b,
  dec be be' m x a -> dec be' be'' (k a) y b -> dec be be'' (rbind m k) (x ++ y) b.
Proof.
  intros A B be be' be'' m k x y a b M K pre post len L L2 L3. unfold rbind.
  rewrite app_length in L. rewrite <- app_assoc in *.
  rewrite M by (rewrite ?app_length in *; lia). cbn [obind].
  pose proof (K (pre ++ x) post len) as K1. rewrite app_length in K1. rewrite <- app_assoc in K1.
  rewrite K1 by (rewrite ?app_length in *; lia).
  rewrite app_length. rewrite Nat.add_assoc. reflexivity.
Qed.

(** A reader whose continuation is a [rret]. *)
Lemma dec_last : forall A B be be' (m : reader A) (k : A -> reader B) x a b,
  dec be be' m x a -> k a = rret b -> dec be be' (rbind m k) x b.
Proof.
  intros A B be be' m k x a b M K. rewrite <- (app_nil_r x). eapply dec_bind; [exact M|]. rewrite K. apply dec_ret.
Qed.

Lemma nth_mid : forall (pre bs post : list Z) i, (i < length bs)%nat -> nth (length pre + i) (pre ++ bs ++ post) 0 = nth i bs 0.
Proof.
  intros pre bs post i H. rewrite app_nth2 by lia. replace (length pre + i - length pre)%nat with i by lia.
  apply app_nth1. exact H.
Qed.

Lemma dec_byte : forall be v, dec be be get_byte [v] v.
Proof.
  intros be v pre post len L M N. cbn [length] in L. rewrite get_byte_at by lia.
  rewrite Nat2Z.id. replace (length pre) with (length pre + 0)%nat at 1 by lia. rewrite nth_mid by (cbn; lia). cbn [nth length].
  do 3 f_equal. lia.
Qed.

Lemma e16_bytes : forall be v, 0 <= v < 65536 -> Forall byte (e16 be v).
Proof.
  intros be v V. assert (byte (v / 256)) by (split; [apply Z.div_pos; lia|apply Z.div_lt_upper_bound; lia]).
  pose proof (byte_mod v). destruct be; repeat constructor; first [apply H|apply H0].
Qed.

Lemma get_u16_raw : forall b len be pos, 0 <= pos -> pos + 2 <= len -> len <= Z.of_nat (length b) -> len < 65536 ->
  get_u16 (mkRd (Some b) len be POk pos) = Ok (u16 (num16 be b (Z.to_nat pos)), mkRd (Some b) len be POk (pos + 2)).
Proof.
  intros b len be pos P H L N. unfold get_u16. cbn [r_res is_ok negb r_be]. unfold rbind.
  rewrite get_byte_at by lia. cbn [obind]. rewrite get_byte_at by lia. cbn [obind rret].
  replace (pos + 1 + 1) with (pos + 2) by lia. replace (Z.to_nat (pos + 1)) with (Z.to_nat pos + 1)%nat by lia.
  unfold num16. rewrite !Z.shiftl_mul_pow2 by lia. change (2 ^ 8) with 256. unfold rret. do 3 f_equal. destruct be; lia.
Qed.

Lemma get_u32_raw : forall b len be pos, 0 <= pos -> pos + 4 <= len -> len <= Z.of_nat (length b) -> len < 65536 ->
  get_u32 (mkRd (Some b) len be POk pos) = Ok (u32 (num32 be b (Z.to_nat pos)), mkRd (Some b) len be POk (pos + 4)).
Proof.
  intros b len be pos P H L N. unfold get_u32. cbn [r_be]. unfold rbind.
  do 4 (rewrite get_byte_at by lia; cbn [obind]). unfold rret.
  replace (pos + 1 + 1 + 1 + 1) with (pos + 4) by lia.
  replace (Z.to_nat (pos + 1 + 1 + 1)) with (Z.to_nat pos + 2 + 1)%nat by lia.
  replace (Z.to_nat (pos + 1 + 1)) with (Z.to_nat pos + 2)%nat by lia.
  replace (Z.to_nat (pos + 1)) with (Z.to_nat pos + 1)%nat by lia.
  unfold num32, num16. rewrite !Z.shiftl_mul_pow2 by lia.
  change (2 ^ 8) with 256. change (2 ^ 16) with 65536. change (2 ^ 24) with 16777216. do 3 f_equal. destruct be; lia.
Qed.

Lemma dec_u16 : forall be v, 0 <= v < 65536 -> dec be be get_u16 (e16 be v) v.
Proof.
  intros be v V pre post len L M N. rewrite e16_length in *. rewrite get_u16_raw by lia. rewrite Nat2Z.id.
  unfold num16. replace (length pre) with (length pre + 0)%nat at 1 3 by lia. rewrite Nat.add_0_r.
  replace (nth (length pre) (pre ++ e16 be v ++ post) 0) with (nth 0 (e16 be v) 0)
    by (rewrite <- (nth_mid pre (e16 be v) post 0) by (rewrite e16_length; lia); rewrite Nat.add_0_r; reflexivity).
  rewrite !nth_mid by (rewrite e16_length; lia).
  do 3 f_equal; [|lia]. pose proof (Z.div_mod v 256 ltac:(lia)).
  destruct be; cbn [e16 nth]; rewrite u16_id; lia.
Qed.

Lemma dec_u32 : forall be v, 0 <= v < 4294967296 -> dec be be get_u32 (e32 be v) v.
Proof.
  intros be v V pre post len L M N. rewrite e32_length in *. rewrite get_u32_raw by lia. rewrite Nat2Z.id.
  assert (X : forall i, (i < 4)%nat -> nth (length pre + i) (pre ++ e32 be v ++ post) 0 = nth i (e32 be v) 0).
  { intros i Hi. apply nth_mid. rewrite e32_length. lia. }
  unfold num32, num16. rewrite <- !Nat.add_assoc. cbn [Nat.add].
  replace (nth (length pre) (pre ++ e32 be v ++ post) 0) with (nth 0 (e32 be v) 0)
    by (rewrite <- X by lia; rewrite Nat.add_0_r; reflexivity).
  rewrite !X by lia.
  do 3 f_equal; [|lia].
  pose proof (Z.div_mod v 65536 ltac:(lia)). pose proof (Z.div_mod (v / 65536) 256 ltac:(lia)).
  pose proof (Z.div_mod (v mod 65536) 256 ltac:(lia)).
  destruct be; cbn [e32 e16 nth app]; rewrite u32_id; lia.
Qed.

Lemma dec_mem : forall be cap old l, Z.of_nat (length l) = cap -> length old = length l ->
  dec be be (get_mem_into cap old cap) l l.
Proof.
  intros be cap old l Lc Lo pre post len L M N. unfold get_mem_into.
  rewrite C27_mem by (rewrite ?app_length in *; lia).
  destruct (Z.leb_spec (Z.of_nat (length pre) + cap) len); [|lia]. cbn [obind].
  destruct (Z.ltb_spec cap cap); [lia|]. rewrite Nat2Z.id.
  rewrite skipn_app, skipn_all, Nat.sub_diag. cbn [skipn app]. subst cap. rewrite Nat2Z.id.
  rewrite firstn_app, firstn_all, Nat.sub_diag. cbn [firstn]. rewrite app_nil_r.
  rewrite skipn_all2 by lia. rewrite app_nil_r. do 3 f_equal. lia.
Qed.

(** * Bit fields *)

Lemma get_bits_val : forall x pos len, 0 <= x < 4294967296 -> 0 <= pos -> 0 < len < 32 -> pos + len <= 32 ->
  get_bits x pos len = (x / 2 ^ pos) mod 2 ^ len.
Proof.
  intros x pos len X P L M. unfold get_bits.
  destruct (Z.eqb_spec len 0); [lia|]. destruct (Z.ltb_spec 32 (pos + len)); [lia|].
  destruct (Z.eqb_spec len 32); [lia|]. rewrite andb_false_r.
  rewrite (Z.shiftl_mul_pow2 1 len), Z.mul_1_l by lia.
  replace (2 ^ len - 1) with (Z.ones len) by (rewrite Z.ones_equiv; lia).
  rewrite Z.land_ones by lia. rewrite Z.shiftr_div_pow2 by lia. reflexivity.
Qed.

Lemma lor_add : forall a b n, 0 <= n -> 0 <= a < 2 ^ n -> Z.lor a (b * 2 ^ n) = a + b * 2 ^ n.
Proof.
  intros a b n N A. rewrite <- Z.lxor_lor, <- Z.add_nocarry_lxor; [reflexivity| |].
  - rewrite <- Z.shiftl_mul_pow2 by lia. apply Z.bits_inj'. intros i Hi. rewrite Z.land_spec, Z.bits_0.
    destruct (Z.lt_ge_cases i n) as [H|H].
    + rewrite Z.shiftl_spec_low by lia. apply andb_false_r.
    + rewrite <- (Z.mod_small a (2 ^ n)) by lia. rewrite Z.mod_pow2_bits_high by lia. reflexivity.
  - rewrite <- Z.shiftl_mul_pow2 by lia. apply Z.bits_inj'. intros i Hi. rewrite Z.land_spec, Z.bits_0.
    destruct (Z.lt_ge_cases i n) as [H|H].
    + rewrite Z.shiftl_spec_low by lia. apply andb_false_r.
    + rewrite <- (Z.mod_small a (2 ^ n)) by lia. rewrite Z.mod_pow2_bits_high by lia. reflexivity.
Qed.

Lemma put_bits_val : forall v len pos acc, 0 <= v < 2 ^ len -> 0 <= len -> 0 <= pos -> 0 <= acc < 2 ^ pos -> pos + len <= 32 ->
  put_bits v len pos acc = acc + v * 2 ^ pos.
Proof.
  intros v len pos acc V L P A M. unfold put_bits.
  rewrite (Z.shiftl_mul_pow2 1 len), Z.mul_1_l by lia. replace (2 ^ len - 1) with (Z.ones len) by (rewrite Z.ones_equiv; lia).
  rewrite Z.land_ones by lia. rewrite Z.mod_small by lia. rewrite Z.shiftl_mul_pow2 by lia.
  assert (v * 2 ^ pos < 4294967296).
  { change 4294967296 with (2 ^ 32). apply Z.lt_le_trans with (2 ^ len * 2 ^ pos).
    - apply Z.mul_lt_mono_pos_r; [apply Z.pow_pos_nonneg; lia|lia].
    - rewrite <- Z.pow_add_r by lia. apply Z.pow_le_mono_r; lia. }
  rewrite u32_id by (split; [apply Z.mul_nonneg_nonneg; lia|assumption]).
  apply lor_add; lia.
Qed.

(** * Round trips *)

(** Specification: [put] writes [n] bytes at the position, nothing else, and [get]
    at the same position delivers [x] and consumes exactly these bytes, whatever
    else is in the buffer. *)
Definition round_trip {A} (be be' : bool) (put : writer) (get : reader A) (x : A) (n : nat) : Prop :=
  forall b len rlen pos,
  0 <= pos -> pos + Z.of_nat n <= len <= Z.of_nat (length b) -> len < 65536 ->
  pos + Z.of_nat n <= rlen <= Z.of_nat (length b) -> rlen < 65536 ->
  exists b', put (mkWr (Some b) len pos) = Ok (mkWr (Some b') len (pos + Z.of_nat n)) /\
    length b' = length b /\
    firstn (Z.to_nat pos) b' = firstn (Z.to_nat pos) b /\
    skipn (Z.to_nat pos + n) b' = skipn (Z.to_nat pos + n) b /\
    get (mkRd (Some b') rlen be POk pos) = Ok (x, mkRd (Some b') rlen be' POk (pos + Z.of_nat n)).

Lemma rt_of : forall A be be' put (get : reader A) x bs, enc put bs -> dec be be' get bs x ->
  round_trip be be' put get x (length bs).
Proof.
  intros A be be' put get x bs E D b len rlen pos P L N R RN.
  exists (put_at b (Z.to_nat pos) bs).
  assert (Lf : length (firstn (Z.to_nat pos) b) = Z.to_nat pos) by (rewrite firstn_length; lia).
  split; [apply E; lia|]. split; [apply put_at_length; lia|].
  split; [unfold put_at; rewrite firstn_app, Lf, Nat.sub_diag, firstn_all2 by lia; cbn [firstn]; apply app_nil_r|].
  split.
  - unfold put_at. rewrite skipn_app, skipn_all2 by lia. rewrite Lf. cbn [app].
    replace (Z.to_nat pos + length bs - Z.to_nat pos)%nat with (length bs) by lia.
    rewrite skipn_app, skipn_all, Nat.sub_diag. reflexivity.
  - pose proof (D (firstn (Z.to_nat pos) b) (skipn (Z.to_nat pos + length bs) b) rlen) as K.
    rewrite Lf in K. unfold put_at.
    rewrite Z2Nat.id in K by lia. rewrite K.
    + do 3 f_equal. lia.
    + lia.
    + rewrite !app_length, Lf, skipn_length. lia.
    + lia.
Qed.

Definition uuid_ok (u : uuid) : Prop :=
  0 <= u_d1 u < 4294967296 /\ 0 <= u_d2 u < 65536 /\ 0 <= u_d3 u < 65536 /\ length (u_d4 u) = 8%nat.
Definition euuid (be : bool) (u : uuid) : list Z := e32 be (u_d1 u) ++ e16 be (u_d2 u) ++ e16 be (u_d3 u) ++ u_d4 u.

Lemma euuid_length : forall be u, uuid_ok u -> length (euuid be u) = 16%nat.
Proof. intros be u (_ & _ & _ & H). unfold euuid. rewrite !app_length, e32_length, !e16_length, H. reflexivity. Qed.

Lemma enc_uuid : forall be u, uuid_ok u -> enc (put_uuid be u) (euuid be u).
Proof.
  intros be u (A & B & C & D). unfold put_uuid, euuid.
  apply enc_seq; [apply enc_u32; exact A|]. apply enc_seq; [apply enc_u16; exact B|].
  apply enc_seq; [apply enc_u16; exact C|]. apply enc_mem.
Qed.

Lemma dec_uuid : forall be u old, uuid_ok u -> length old = 8%nat -> dec be be (get_uuid old) (euuid be u) u.
Proof.
  intros be u old (A & B & C & D) L. unfold get_uuid, euuid.
  eapply dec_bind; [apply dec_u32; exact A|]. eapply dec_bind; [apply dec_u16; exact B|].
  eapply dec_bind; [apply dec_u16; exact C|]. eapply dec_last; [apply dec_mem; [lia|congruence]|].
  destruct u; reflexivity.
Qed.

Theorem C28_uint16 : forall be v, 0 <= v < 65536 -> round_trip be be (put_u16 be v) get_u16 v 2.
Proof. intros be v V. rewrite <- (e16_length be v). apply rt_of; [apply enc_u16|apply dec_u16]; exact V. Qed.
Print Assumptions C28_uint16.

Theorem C28_uint32 : forall be v, 0 <= v < 4294967296 -> round_trip be be (put_u32 be v) get_u32 v 4.
Proof. intros be v V. rewrite <- (e32_length be v). apply rt_of; [apply enc_u32|apply dec_u32]; exact V. Qed.
Print Assumptions C28_uint32.

Theorem C28_uuid : forall be u old, uuid_ok u -> length old = 8%nat ->
  round_trip be be (put_uuid be u) (get_uuid old) u 16.
Proof.
  intros be u old U L. rewrite <- (euuid_length be u U). apply rt_of; [apply enc_uuid|apply dec_uuid]; assumption.
Qed.
Print Assumptions C28_uuid.

(** The block header: what is read is the type, the length given plus two (the
    version is counted by the length field) and the version. *)
Lemma enc_header : forall be ty len vh vl, 0 <= ty < 65536 -> 0 <= len < 65534 -> byte vh -> byte vl ->
  enc (put_block_header be ty len vh vl) (e16 be ty ++ e16 be (len + 2) ++ [vh; vl]).
Proof.
  intros be ty len vh vl T L H K. unfold put_block_header. replace (len + 6 - 4) with (len + 2) by lia. rewrite u16_id by lia.
  apply enc_seq; [apply enc_u16; exact T|]. apply enc_seq; [apply enc_u16; lia|].
  change [vh; vl] with ([vh] ++ [vl]). apply enc_seq; apply enc_byte; assumption.
Qed.

Lemma dec_header : forall be ty len vh vl, 0 <= ty < 65536 -> 0 <= len < 65536 ->
  dec be be get_block_header (e16 be ty ++ e16 be len ++ [vh; vl]) (mkBhead ty len vh vl).
Proof.
  intros be ty len vh vl T L. unfold get_block_header.
  eapply dec_bind; [apply dec_u16; exact T|]. eapply dec_bind; [apply dec_u16; exact L|].
  change [vh; vl] with ([vh] ++ [vl]). eapply dec_bind; [apply dec_byte|]. eapply dec_last; [apply dec_byte|]. reflexivity.
Qed.

Theorem C28_block_header : forall be ty len vh vl, 0 <= ty < 65536 -> 0 <= len < 65534 -> byte vh -> byte vl ->
  round_trip be be (put_block_header be ty len vh vl) get_block_header (mkBhead ty (len + 2) vh vl) 6.
Proof.
  intros be ty len vh vl T L H K.
  replace 6%nat with (length (e16 be ty ++ e16 be (len + 2) ++ [vh; vl])) by (rewrite !app_length, !e16_length; reflexivity).
  apply rt_of; [apply enc_header; assumption|apply dec_header; lia].
Qed.
Print Assumptions C28_block_header.

(** Blocks: the header carries the number of bytes that follow the length field. *)
Lemma put_at_over : forall b p x y y' z, length y' = length y -> (p + length (x ++ y ++ z) <= length b)%nat ->
  put_at (put_at b p (x ++ y ++ z)) (p + length x) y' = put_at b p (x ++ y' ++ z).
Proof.
  intros b p x y y' z E H. rewrite !app_length in H. unfold put_at. rewrite !app_length.
  assert (L : length (firstn p b) = p) by (rewrite firstn_length; lia).
  replace (firstn p b ++ (x ++ y ++ z) ++ skipn (p + (length x + (length y + length z))) b)
    with ((firstn p b ++ x) ++ y ++ z ++ skipn (p + (length x + (length y + length z))) b) by (rewrite <- !app_assoc; reflexivity).
  rewrite firstn_app. rewrite firstn_all2 by (rewrite app_length; lia).
  rewrite app_length, L, Nat.sub_diag. cbn [firstn]. rewrite app_nil_r.
  rewrite skipn_app, app_length, L. rewrite skipn_all2 by (rewrite app_length; lia). cbn [app].
  replace (p + length x + length y' - (p + length x))%nat with (length y) by lia.
  rewrite skipn_app, skipn_all, Nat.sub_diag. cbn [skipn app]. rewrite E, <- !app_assoc. reflexivity.
Qed.

Definition eblock (be : bool) (ty : Z) (bs : list Z) : list Z :=
  e16 be ty ++ e16 be (2 + Z.of_nat (length bs)) ++ [1; 0] ++ bs.

Lemma enc_block : forall be ty body bs, 0 <= ty < 65536 -> Z.of_nat (length bs) < 65534 -> enc body bs ->
  enc (put_block be ty body) (eblock be ty bs).
Proof.
  intros be ty body bs T Lb B b len pos P L M N. unfold put_block. cbn [w_pos].
  assert (Le : length (eblock be ty bs) = (6 + length bs)%nat) by (unfold eblock; rewrite !app_length, !e16_length; reflexivity).
  rewrite Le in L.
  assert (EH : enc (put_block_header be ty 0 1 0) (e16 be ty ++ e16 be (0 + 2) ++ [1; 0])) by (apply enc_header; unfold byte; lia).
  unfold wseq. rewrite EH by (rewrite ?app_length, ?e16_length; cbn [length]; lia). cbn [obind].
  assert (LH : length (e16 be ty ++ e16 be (0 + 2) ++ [1; 0]) = 6%nat) by (rewrite !app_length, !e16_length; reflexivity).
  rewrite LH.
  rewrite B by (rewrite ?put_at_length; lia). cbn [obind].
  replace (Z.to_nat (pos + Z.of_nat 6)) with (Nat.add (Z.to_nat pos) (length (e16 be ty ++ e16 be (0 + 2) ++ [1; 0]))) by lia.
  rewrite put_at_app by lia.
  unfold put_block_len. cbn [w_pos w_buf w_len].
  replace (u16 (pos + Z.of_nat 6 + Z.of_nat (length bs) - (pos + 4))) with (2 + Z.of_nat (length bs)) by (rewrite u16_id; lia).
  rewrite (u16_id (pos + 2)) by lia.
  assert (E2 : enc (put_u16 be (2 + Z.of_nat (length bs))) (e16 be (2 + Z.of_nat (length bs)))) by (apply enc_u16; lia).
  rewrite E2 by (rewrite ?put_at_length, ?app_length, ?e16_length; rewrite ?app_length, ?e16_length; cbn [length]; lia).
  cbn [obind w_buf w_len].
  rewrite <- !app_assoc.
  replace (Z.to_nat (pos + 2)) with (Z.to_nat pos + length (e16 be ty))%nat by (rewrite e16_length; lia).
  rewrite put_at_over; [|rewrite !e16_length; reflexivity|rewrite !app_length, !e16_length; cbn [length]; lia].
  rewrite Le. unfold eblock.
  replace (pos + Z.of_nat 6 + Z.of_nat (length bs)) with (pos + Z.of_nat (6 + length bs)) by lia. reflexivity.
Qed.

(** Reading a block: header, then body. *)
Definition get_block {A} (body : reader A) : reader (bhead * A) :=
  rdo h <- get_block_header; rdo x <- body; rret (h, x).

Lemma dec_block : forall A be be' (m : reader A) ty bs x, 0 <= ty < 65536 -> Z.of_nat (length bs) < 65534 -> dec be be' m bs x ->
  dec be be' (get_block m) (eblock be ty bs) (mkBhead ty (2 + Z.of_nat (length bs)) 1 0, x).
Proof.
  intros A be be' m ty bs x T L D. unfold get_block, eblock.
  replace (e16 be ty ++ e16 be (2 + Z.of_nat (length bs)) ++ [1; 0] ++ bs)
    with ((e16 be ty ++ e16 be (2 + Z.of_nat (length bs)) ++ [1; 0]) ++ bs) by (rewrite <- !app_assoc; reflexivity).
  eapply dec_bind; [apply dec_header; lia|]. eapply dec_last; [exact D|]. reflexivity.
Qed.

Lemma block_rt : forall A be be' (m : reader A) put ty bs x n, 0 <= ty < 65536 -> length bs = n -> Z.of_nat n < 65534 ->
  enc put bs -> dec be be' m bs x ->
  round_trip be be' (put_block be ty put) (get_block m) (mkBhead ty (2 + Z.of_nat n) 1 0, x) (6 + n).
Proof.
  intros A be be' m put ty bs x n T L N E D. subst n.
  replace (6 + length bs)%nat with (length (eblock be ty bs)) by (unfold eblock; rewrite !app_length, !e16_length; reflexivity).
  apply rt_of; [apply enc_block; assumption|apply dec_block; assumption].
Qed.

Definition control_ok (k : control) : Prop :=
  uuid_ok (k_uuid k) /\ 0 <= k_session k < 65536 /\ 0 <= k_command k < 65536 /\ 0 <= k_props k < 65536 /\ 0 <= k_alarmseq k < 65536.

(** Control blocks (PrmEnd, ApplicationReady, Release): 32 bytes. *)
Theorem C28_control_block : forall be ty k old, 0 <= ty < 65536 -> control_ok k -> length old = 8%nat ->
  round_trip be be (put_control be ty k) (get_block (get_control old)) (mkBhead ty 28 1 0, k) 32.
Proof.
  intros be ty k old T (U & S1 & C & P & Q) L. unfold put_control.
  apply (block_rt _ be be (get_control old) _ ty
    ([0] ++ [0] ++ euuid be (k_uuid k) ++ e16 be (k_session k) ++ e16 be (k_alarmseq k) ++ e16 be (k_command k) ++ e16 be (k_props k)) k 26).
  - exact T.
  - rewrite !app_length, euuid_length, !e16_length by exact U. reflexivity.
  - lia.
  - apply enc_seq; [apply enc_byte; unfold byte; lia|]. apply enc_seq; [apply enc_byte; unfold byte; lia|].
    apply enc_seq; [apply enc_uuid; exact U|]. apply enc_seq; [apply enc_u16; exact S1|].
    apply enc_seq; [apply enc_u16; exact Q|]. apply enc_seq; [apply enc_u16; exact C|]. apply enc_u16; exact P.
  - unfold get_control. rewrite app_assoc. change ([0] ++ [0]) with [0; 0].
    assert (Z0 : [0; 0] = e16 be 0) by (destruct be; reflexivity). rewrite Z0.
    eapply dec_bind; [apply dec_u16; lia|]. eapply dec_bind; [apply dec_uuid; assumption|].
    eapply dec_bind; [apply dec_u16; exact S1|]. eapply dec_bind; [apply dec_u16; exact Q|].
    eapply dec_bind; [apply dec_u16; exact C|]. eapply dec_last; [apply dec_u16; exact P|].
    destruct k; reflexivity.
Qed.
Print Assumptions C28_control_block.

(** Alarm frame header. *)
Definition afixed_ok (a : afixed) : Prop :=
  0 <= a_dst a < 65536 /\ 0 <= a_src a < 65536 /\ 0 <= a_type a < 16 /\ 0 <= a_version a < 16 /\
  0 <= a_window a < 16 /\ 0 <= a_tack a < 2 /\ 0 <= a_send a < 65536 /\ 0 <= a_ack a < 65536.

Theorem C28_alarm_fixed : forall be a, afixed_ok a -> round_trip be be (put_alarm_fixed be a) get_alarm_fixed a 10.
Proof.
  intros be a (D & S1 & T & V & W & K & N & A). unfold put_alarm_fixed.
  rewrite (put_bits_val (a_type a) 4 0 0) by lia. rewrite (put_bits_val (a_window a) 4 0 0) by lia.
  change (2 ^ 0) with 1. rewrite !Z.mul_1_r, !Z.add_0_l.
  rewrite (put_bits_val (a_version a) 4 4) by lia. rewrite (put_bits_val (a_tack a) 1 4) by lia.
  change (2 ^ 4) with 16. rewrite !u8_id by lia.
  remember (a_type a + a_version a * 16) as x eqn:Ex. remember (a_window a + a_tack a * 16) as y eqn:Ey.
  assert (Bx : byte x) by (unfold byte; lia). assert (By : byte y) by (unfold byte; lia).
  assert (LL : length (e16 be (a_dst a) ++ e16 be (a_src a) ++ [x] ++ [y] ++ e16 be (a_send a) ++ e16 be (a_ack a)) = 10%nat)
    by (destruct be; reflexivity).
  rewrite <- LL. apply rt_of.
  - apply enc_seq; [apply enc_u16; exact D|]. apply enc_seq; [apply enc_u16; exact S1|].
    apply enc_seq; [apply enc_byte; exact Bx|]. apply enc_seq; [apply enc_byte; exact By|].
    apply enc_seq; [apply enc_u16; exact N|apply enc_u16; exact A].
  - unfold get_alarm_fixed. eapply dec_bind; [apply dec_u16; exact D|]. eapply dec_bind; [apply dec_u16; exact S1|].
    eapply dec_bind; [apply dec_byte|]. eapply dec_bind; [apply dec_byte|]. eapply dec_bind; [apply dec_u16; exact N|].
    eapply dec_last; [apply dec_u16; exact A|].
    unfold byte in *. rewrite !get_bits_val by lia. change (2 ^ 0) with 1. change (2 ^ 4) with 16. change (2 ^ 1) with 2.
    rewrite !Z.div_1_r. rewrite Ex, Ey. rewrite !Z.div_add by lia.
    rewrite (Z.div_small (a_type a)), (Z.div_small (a_window a)) by lia. rewrite !Z.add_0_l, !Z.mod_add by lia.
    rewrite !Z.mod_small by lia. destruct a; reflexivity.
Qed.
Print Assumptions C28_alarm_fixed.

(** Alarm data: notification (with any payload behind it) and acknowledge. *)
Definition adata_ok (d : adata) : Prop :=
  0 <= ad_type d < 65536 /\ 0 <= ad_api d < 4294967296 /\ 0 <= ad_slot d < 65536 /\ 0 <= ad_subslot d < 65536 /\
  0 <= ad_module d < 4294967296 /\ 0 <= ad_submodule d < 4294967296 /\ 0 <= ad_seq d < 2048 /\
  0 <= ad_channel d < 2 /\ 0 <= ad_manuf d < 2 /\ 0 <= ad_submod d < 2 /\ 0 <= ad_ar d < 2.

Lemma alarm_spec_val : forall d, adata_ok d ->
  alarm_spec d = ad_seq d + ad_channel d * 2048 + ad_manuf d * 4096 + ad_submod d * 8192 + ad_ar d * 32768.
Proof.
  intros d (_ & _ & _ & _ & _ & _ & A & B & C & D & E). unfold alarm_spec.
  rewrite (put_bits_val (ad_seq d) 11 0 0) by lia. change (2 ^ 0) with 1.
  rewrite (put_bits_val (ad_channel d) 1 11) by lia. change (2 ^ 11) with 2048.
  rewrite (put_bits_val (ad_manuf d) 1 12) by lia. change (2 ^ 12) with 4096.
  rewrite (put_bits_val (ad_submod d) 1 13) by lia. change (2 ^ 13) with 8192.
  rewrite (put_bits_val (ad_ar d) 1 15) by lia. change (2 ^ 15) with 32768.
  rewrite u16_id by lia. lia.
Qed.

Lemma alarm_spec_range : forall d, adata_ok d -> 0 <= alarm_spec d < 65536.
Proof. intros. apply u16_range. Qed.

Lemma alarm_spec_back : forall d, adata_ok d ->
  get_bits (alarm_spec d) 0 11 = ad_seq d /\ get_bits (alarm_spec d) 11 1 = ad_channel d /\
  get_bits (alarm_spec d) 12 1 = ad_manuf d /\ get_bits (alarm_spec d) 13 1 = ad_submod d /\
  get_bits (alarm_spec d) 15 1 = ad_ar d.
Proof.
  intros d H. pose proof (alarm_spec_range d H). rewrite !get_bits_val by lia.
  rewrite alarm_spec_val by exact H. destruct H as (_ & _ & _ & _ & _ & _ & A & B & C & D & E).
  change (2 ^ 0) with 1. change (2 ^ 11) with 2048. change (2 ^ 12) with 4096. change (2 ^ 13) with 8192. change (2 ^ 15) with 32768.
  change (2 ^ 1) with 2.
  assert (B' : ad_channel d = 0 \/ ad_channel d = 1) by lia. assert (C' : ad_manuf d = 0 \/ ad_manuf d = 1) by lia.
  assert (D' : ad_submod d = 0 \/ ad_submod d = 1) by lia. assert (E' : ad_ar d = 0 \/ ad_ar d = 1) by lia.
  clear B C D E.
  destruct B' as [->| ->], C' as [->| ->], D' as [->| ->], E' as [->| ->]; repeat split; Z.div_mod_to_equations; lia.
Qed.

Theorem C28_alarm_notification : forall be ty d payload ps, 0 <= ty < 65536 -> adata_ok d ->
  enc payload ps -> Z.of_nat (length ps) < 65000 ->
  round_trip be be (put_alarm_notification be ty d payload) (get_block (rdo a <- get_alarm_data; rdo _ <- get_mem (Z.of_nat (length ps)); rret a))
    (mkBhead ty (22 + Z.of_nat (length ps)) 1 0, d) (26 + length ps).
Proof.
  intros be ty d payload ps T K E L. pose proof K as (A1 & A2 & A3 & A4 & A5 & A6 & _).
  pose proof (alarm_spec_range d K) as R. destruct (alarm_spec_back d K) as (B1 & B2 & B3 & B4 & B5).
  unfold put_alarm_notification.
  replace (22 + Z.of_nat (length ps)) with (2 + Z.of_nat (20 + length ps)) by lia.
  replace (26 + length ps)%nat with (6 + (20 + length ps))%nat by lia.
  apply (block_rt _ be be _ _ ty
   (e16 be (ad_type d) ++ e32 be (ad_api d) ++ e16 be (ad_slot d) ++ e16 be (ad_subslot d) ++ e32 be (ad_module d) ++
    e32 be (ad_submodule d) ++ e16 be (alarm_spec d) ++ ps) d).
  - exact T.
  - rewrite !app_length, !e16_length, !e32_length. lia.
  - lia.
  - repeat (apply enc_seq; [first [apply enc_u16; assumption|apply enc_u32; assumption]|]). exact E.
  - replace (e16 be (ad_type d) ++ e32 be (ad_api d) ++ e16 be (ad_slot d) ++ e16 be (ad_subslot d) ++ e32 be (ad_module d) ++
      e32 be (ad_submodule d) ++ e16 be (alarm_spec d) ++ ps) with
      ((e16 be (ad_type d) ++ e32 be (ad_api d) ++ e16 be (ad_slot d) ++ e16 be (ad_subslot d) ++ e32 be (ad_module d) ++
      e32 be (ad_submodule d) ++ e16 be (alarm_spec d)) ++ ps) by (rewrite <- !app_assoc; reflexivity).
    eapply dec_bind.
    + unfold get_alarm_data. eapply dec_bind; [apply dec_u16; exact A1|]. eapply dec_bind; [apply dec_u32; exact A2|].
      eapply dec_bind; [apply dec_u16; exact A3|]. eapply dec_bind; [apply dec_u16; exact A4|].
      eapply dec_bind; [apply dec_u32; exact A5|]. eapply dec_bind; [apply dec_u32; exact A6|].
      eapply dec_last; [apply dec_u16; exact R|]. rewrite B1, B2, B3, B4, B5. reflexivity.
    + eapply (dec_last _ _ be be (get_mem (Z.of_nat (length ps))) _ ps (Some ps)); [|destruct d; reflexivity].
      intros pre post len X Y Z0. rewrite C27_mem by (rewrite ?app_length in *; lia).
      destruct (Z.leb_spec (Z.of_nat (length pre) + Z.of_nat (length ps)) len); [|lia].
      rewrite !Nat2Z.id. rewrite skipn_app, skipn_all, Nat.sub_diag. cbn [skipn app].
      rewrite firstn_app, firstn_all, Nat.sub_diag. cbn [firstn]. rewrite app_nil_r. do 3 f_equal. lia.
Qed.
Print Assumptions C28_alarm_notification.

Definition pnio_ok (s : pnio) : Prop := byte (p_code s) /\ byte (p_decode s) /\ byte (p_code1 s) /\ byte (p_code2 s).

Lemma enc_pnio : forall s, pnio_ok s -> enc (put_pnet_status true s) [p_code s; p_decode s; p_code1 s; p_code2 s].
Proof.
  intros s (A & B & C & D). unfold byte in *. unfold put_pnet_status.
  set (v := 16777216 * p_code s + 65536 * p_decode s + 256 * p_code1 s + p_code2 s).
  assert (V : 0 <= v < 4294967296) by (unfold v; lia). rewrite u32_id by exact V.
  replace [p_code s; p_decode s; p_code1 s; p_code2 s] with (e32 true v); [apply enc_u32; exact V|].
  cbn [e32 e16 app]. unfold v. f_equal; [|f_equal; [|f_equal; [|f_equal]]]; Z.div_mod_to_equations; lia.
Qed.

Lemma dec_pnio : forall be s, dec be be get_pnio_status [p_code s; p_decode s; p_code1 s; p_code2 s] s.
Proof.
  intros be s. unfold get_pnio_status.
  change [p_code s; p_decode s; p_code1 s; p_code2 s] with ([p_code s] ++ [p_decode s] ++ [p_code1 s] ++ [p_code2 s]).
  repeat (eapply dec_bind; [apply dec_byte|]). eapply dec_last; [apply dec_byte|]. destruct s; reflexivity.
Qed.

(** PNIO status: written big endian, it is read back in any byte order. *)
Theorem C28_pnio_status : forall be s, pnio_ok s ->
  round_trip be be (put_pnet_status true s) get_pnio_status s 4.
Proof.
  intros be s H. change 4%nat with (length [p_code s; p_decode s; p_code1 s; p_code2 s]).
  apply rt_of; [apply enc_pnio; exact H|apply dec_pnio].
Qed.
Print Assumptions C28_pnio_status.

(** Finding: written little endian (a controller that sent its request little
    endian), the reader sees the four codes in reverse. *)
Theorem C28_pnio_status_little_refuted :
  exists s, pnio_ok s /\ ~ round_trip false false (put_pnet_status false s) get_pnio_status s 4.
Proof.
  exists (mkPnio 219 129 1 2). split; [unfold pnio_ok, byte; cbn; lia|]. intros H.
  destruct (H [0; 0; 0; 0] 4 4 0) as (b' & E & _ & _ & _ & G); try (cbn; lia).
  vm_compute in E. injection E as <-. vm_compute in G. discriminate.
Qed.
Print Assumptions C28_pnio_status_little_refuted.

Theorem C28_alarm_ack : forall be ty d s om os, 0 <= ty < 65536 -> adata_ok d -> pnio_ok s -> om = ad_module d -> os = ad_submodule d ->
  forall b pos, 0 <= pos -> pos + 22 <= 1500 <= Z.of_nat (length b) ->
  exists b', put_alarm_ack be ty d s (mkWr (Some b) 1500 pos) = Ok (mkWr (Some b') 1500 (pos + 22)) /\
    length b' = length b /\
    get_block (rdo a <- get_alarm_ack om os; rdo p <- get_pnio_status; rret (a, p)) (mkRd (Some b') 1500 be POk pos)
    = Ok ((mkBhead ty 18 1 0, (d, s)), mkRd (Some b') 1500 be POk (pos + 22)).
Proof.
  intros be ty d s om os T K S1 Eo Es b pos P L. pose proof K as (A1 & A2 & A3 & A4 & A5 & A6 & _).
  pose proof (alarm_spec_range d K) as R. destruct (alarm_spec_back d K) as (B1 & B2 & B3 & B4 & B5).
  assert (W : forall w, w_len w = 1500 -> with_len frame_buffer_size (put_pnet_status true s) w = put_pnet_status true s w \/
    put_pnet_status true s w = Ub).
  { intros [wb wl wp] Hw. cbn [w_len] in Hw. subst wl. unfold with_len. cbn [w_buf w_pos w_len]. unfold frame_buffer_size.
    destruct (put_pnet_status true s (mkWr wb 1500 wp)) as [[b1 l1 p1]| |] eqn:Ew; cbn [obind w_buf w_len w_pos]; auto.
    - left. assert (l1 = 1500); [|subst; reflexivity].
      unfold put_pnet_status, put_u32, wseq in Ew. cbn [obind] in Ew.
      assert (Q : forall v w1 w2, put_byte v w1 = Ok w2 -> w_len w2 = w_len w1).
      { intros v w1 w2 Hq. unfold put_byte in Hq. destruct (w_len w1 <? w_pos w1 + 1); [injection Hq as <-; reflexivity|].
        destruct (w_buf w1); [|injection Hq as <-; reflexivity]. destruct (poke _ _ _); cbn [obind] in Hq; try discriminate.
        injection Hq as <-. reflexivity. }
      repeat match type of Ew with (do _ <- ?m; _) = Ok _ => let E := fresh "E" in destruct m eqn:E; cbn [obind] in Ew; try discriminate; apply Q in E end.
      apply Q in Ew. cbn [w_len] in *. congruence. }
  assert (RT : round_trip be be (put_block be ty (put_u16 be (ad_type d) ;; put_u32 be (ad_api d) ;; put_u16 be (ad_slot d) ;; put_u16 be (ad_subslot d) ;;
    put_u16 be (alarm_spec d) ;; put_pnet_status true s)) (get_block (rdo a <- get_alarm_ack om os; rdo p <- get_pnio_status; rret (a, p)))
    (mkBhead ty (2 + Z.of_nat 16) 1 0, (d, s)) (6 + 16)).
  { apply (block_rt _ be be _ _ ty (e16 be (ad_type d) ++ e32 be (ad_api d) ++ e16 be (ad_slot d) ++ e16 be (ad_subslot d) ++
      e16 be (alarm_spec d) ++ [p_code s; p_decode s; p_code1 s; p_code2 s]) (d, s)).
    - exact T.
    - rewrite !app_length, !e16_length, !e32_length. reflexivity.
    - lia.
    - repeat (apply enc_seq; [first [apply enc_u16; assumption|apply enc_u32; assumption]|]). apply enc_pnio; exact S1.
    - replace (e16 be (ad_type d) ++ e32 be (ad_api d) ++ e16 be (ad_slot d) ++ e16 be (ad_subslot d) ++
        e16 be (alarm_spec d) ++ [p_code s; p_decode s; p_code1 s; p_code2 s]) with
        ((e16 be (ad_type d) ++ e32 be (ad_api d) ++ e16 be (ad_slot d) ++ e16 be (ad_subslot d) ++
        e16 be (alarm_spec d)) ++ [p_code s; p_decode s; p_code1 s; p_code2 s]) by (rewrite <- !app_assoc; reflexivity).
      eapply dec_bind.
      + unfold get_alarm_ack. eapply dec_bind; [apply dec_u16; exact A1|]. eapply dec_bind; [apply dec_u32; exact A2|].
        eapply dec_bind; [apply dec_u16; exact A3|]. eapply dec_bind; [apply dec_u16; exact A4|].
        eapply dec_last; [apply dec_u16; exact R|]. rewrite B1, B2, B3, B4, B5. reflexivity.
      + eapply dec_last; [apply dec_pnio|]. subst. destruct d; reflexivity. }
  destruct (RT b 1500 1500 pos) as (b' & X1 & X2 & _ & _ & X5); try lia.
  exists b'. change (Z.of_nat (6 + 16)) with 22 in *. change (2 + Z.of_nat 16) with 18 in *. split; [|auto].
  clear RT X5. revert X1. unfold put_alarm_ack, put_block, wseq. cbn [w_pos].
  assert (Q : forall v w1 w2, put_byte v w1 = Ok w2 -> w_len w2 = w_len w1).
  { intros v w1 w2 Hq. unfold put_byte in Hq. destruct (w_len w1 <? w_pos w1 + 1); [injection Hq as <-; reflexivity|].
    destruct (w_buf w1); [|injection Hq as <-; reflexivity]. destruct (poke _ _ _); cbn [obind] in Hq; try discriminate.
    injection Hq as <-. reflexivity. }
  assert (Q16 : forall v w1 w2, put_u16 be v w1 = Ok w2 -> w_len w2 = w_len w1).
  { intros v w1 w2 Hq. unfold put_u16, wseq in Hq. destruct be;
    (destruct (put_byte _ w1) eqn:Eq in Hq; cbn [obind] in Hq; try discriminate; apply Q in Hq, Eq; congruence). }
  assert (Q32 : forall v w1 w2, put_u32 be v w1 = Ok w2 -> w_len w2 = w_len w1).
  { intros v w1 w2 Hq. unfold put_u32, wseq in Hq. destruct be;
    (repeat match type of Hq with (do _ <- ?m; _) = Ok _ => let E := fresh "E" in destruct m eqn:E; cbn [obind] in Hq; try discriminate; apply Q in E end;
     apply Q in Hq; congruence). }
  destruct (put_block_header be ty 0 1 0 (mkWr (Some b) 1500 pos)) as [w1| |] eqn:Eh; cbn [obind]; try (intros; assumption).
  assert (W1 : w_len w1 = 1500).
  { unfold put_block_header, wseq in Eh.
    destruct (put_u16 be ty _) eqn:Q1 in Eh; cbn [obind] in Eh; try discriminate. apply Q16 in Q1.
    destruct (put_u16 be _ a) eqn:Q2 in Eh; cbn [obind] in Eh; try discriminate. apply Q16 in Q2.
    destruct (put_byte _ a0) eqn:Q3 in Eh; cbn [obind] in Eh; try discriminate. apply Q in Q3, Eh. cbn [w_len] in *. congruence. }
  repeat match goal with |- (do _ <- (do _ <- ?m; _); _) = _ -> _ => let E := fresh "E" in destruct m eqn:E; cbn [obind]; try (intros; assumption); first [apply Q16 in E|apply Q32 in E] end.
  match goal with |- (do _ <- put_pnet_status true s ?w; _) = _ -> _ => destruct (W w ltac:(congruence)) as [Ww|Ww]; rewrite Ww end.
  - auto.
  - cbn [obind]. discriminate.
Qed.
Print Assumptions C28_alarm_ack.

(** RPC header: 80 bytes; both byte orders; the reader takes the byte order from
    the header.  Fields that the writer does not write: cancel, and a float
    representation other than 0. *)
Definition flag (x : Z) : Prop := x = 0 \/ x = 1.
Definition rpch_ok (h : rpch) : Prop :=
  byte (h_version h) /\ 0 <= h_ptype h < 32 /\
  flag (h_last h) /\ flag (h_frag h) /\ flag (h_nofack h) /\ flag (h_maybe h) /\ flag (h_idem h) /\ flag (h_bcast h) /\
  h_cancel h = 0 /\ h_float h = 0 /\ byte (h_reserved h) /\ byte (h_serial_high h) /\
  uuid_ok (h_object h) /\ uuid_ok (h_interface h) /\ uuid_ok (h_activity h) /\
  0 <= h_boot h < 4294967296 /\ 0 <= h_ifver h < 4294967296 /\ 0 <= h_seq h < 4294967296 /\
  0 <= h_opnum h < 65536 /\ 0 <= h_ifhint h < 65536 /\ 0 <= h_acthint h < 65536 /\ 0 <= h_bodylen h < 65536 /\
  0 <= h_fragnmb h < 65536 /\ byte (h_auth h) /\ byte (h_serial_low h).

Definition rpc_flags (h : rpch) : Z :=
  2 * h_last h + 4 * h_frag h + 8 * h_nofack h + 16 * h_maybe h + 32 * h_idem h + 64 * h_bcast h.

Lemma dec_set_endian : forall be b, dec be b (set_endian b) [] tt.
Proof.
  intros be b pre post len L M N. unfold set_endian, set_be. cbn [app length r_buf r_len r_res r_pos].
  rewrite Nat.add_0_r. reflexivity.
Qed.

Definition epnio (be : bool) (s : pnio) : list Z :=
  e32 be (16777216 * p_code s + 65536 * p_decode s + 256 * p_code1 s + p_code2 s).
Lemma enc_pnio_any : forall be s, pnio_ok s -> enc (put_pnet_status be s) (epnio be s).
Proof.
  intros be s (A & B & C & D). unfold byte in *. unfold put_pnet_status, epnio. rewrite u32_id by lia. apply enc_u32. lia.
Qed.

Ltac enc1 :=
  match goal with
  | |- enc (put_byte _) _ => apply enc_byte; unfold byte in *; lia
  | |- enc (put_u16 _ _) _ => apply enc_u16; assumption
  | |- enc (put_u32 _ _) _ => apply enc_u32; assumption
  | |- enc (put_uuid _ _) _ => apply enc_uuid; assumption
  | |- enc (put_pnet_status _ _) _ => apply enc_pnio_any; assumption
  end.

Theorem C28_rpc_header : forall be0 h o1 o2 o3, rpch_ok h ->
  length o1 = 8%nat -> length o2 = 8%nat -> length o3 = 8%nat ->
  round_trip be0 (h_be h) (put_dce_rpc_header h) (get_dce_rpc_header o1 o2 o3) h 80.
Proof.
  intros be0 h o1 o2 o3 H L1 L2 L3.
  destruct H as (V & PT & F1 & F2 & F3 & F4 & F5 & F6 & Hc & Hf & Hr & Hs & U1 & U2 & U3 & Hb & Hi & Hq & Ho & Hih & Hah & Hbl & Hfn & Hau & Hsl).
  unfold put_dce_rpc_header. cbn zeta. rewrite Hf.
  set (be := h_be h) in *.
  assert (EF : put_bits (if h_bcast h =? 0 then 0 else 1) 1 6 (put_bits (if h_idem h =? 0 then 0 else 1) 1 5
    (put_bits (if h_maybe h =? 0 then 0 else 1) 1 4 (put_bits (if h_nofack h =? 0 then 0 else 1) 1 3
    (put_bits (if h_frag h =? 0 then 0 else 1) 1 2 (put_bits (if h_last h =? 0 then 0 else 1) 1 1 0))))) mod 256 = rpc_flags h).
  { unfold rpc_flags. destruct F1 as [->| ->], F2 as [->| ->], F3 as [->| ->], F4 as [->| ->], F5 as [->| ->], F6 as [->| ->]; reflexivity. }
  rewrite EF. clear EF.
  set (dr := if be then 0 else 16).
  assert (ED : put_bits (if be then 0 else 1) 4 4 0 mod 256 = dr) by (unfold dr; destruct be; reflexivity).
  rewrite ED. clear ED.
  assert (BD : byte dr) by (unfold dr, byte; destruct be; lia).
  assert (BF : byte (rpc_flags h)).
  { unfold rpc_flags, byte, flag in *. lia. }
  assert (LL : length ([h_version h] ++ [h_ptype h] ++ [rpc_flags h] ++ [0] ++ [dr] ++ [0] ++ [h_reserved h] ++ [h_serial_high h] ++
    euuid be (h_object h) ++ euuid be (h_interface h) ++ euuid be (h_activity h) ++ e32 be (h_boot h) ++ e32 be (h_ifver h) ++
    e32 be (h_seq h) ++ e16 be (h_opnum h) ++ e16 be (h_ifhint h) ++ e16 be (h_acthint h) ++ e16 be (h_bodylen h) ++
    e16 be (h_fragnmb h) ++ [h_auth h] ++ [h_serial_low h]) = 80%nat).
  { rewrite !app_length, !euuid_length, !e32_length, !e16_length by assumption. reflexivity. }
  rewrite <- LL. apply rt_of.
  - repeat (apply enc_seq; [enc1|]). apply enc_byte. exact Hsl.
  - unfold get_dce_rpc_header.
    eapply dec_bind; [apply dec_byte|]. eapply dec_bind; [apply dec_byte|]. eapply dec_bind; [apply dec_byte|].
    eapply dec_bind; [apply dec_byte|]. eapply dec_bind; [apply dec_byte|]. cbn zeta.
    assert (EB : (get_bits dr 4 4 =? 0) = be) by (unfold dr; destruct be; reflexivity). rewrite EB.
    match goal with |- dec _ _ _ ?l _ => change l with ([] ++ l) end.
    eapply dec_bind; [apply dec_set_endian|].
    eapply dec_bind; [apply dec_byte|]. eapply dec_bind; [apply dec_byte|]. eapply dec_bind; [apply dec_byte|].
    eapply dec_bind; [apply dec_uuid; assumption|]. eapply dec_bind; [apply dec_uuid; assumption|]. eapply dec_bind; [apply dec_uuid; assumption|].
    eapply dec_bind; [apply dec_u32; assumption|]. eapply dec_bind; [apply dec_u32; assumption|]. eapply dec_bind; [apply dec_u32; assumption|].
    eapply dec_bind; [apply dec_u16; assumption|]. eapply dec_bind; [apply dec_u16; assumption|]. eapply dec_bind; [apply dec_u16; assumption|].
    eapply dec_bind; [apply dec_u16; assumption|]. eapply dec_bind; [apply dec_u16; assumption|].
    eapply dec_bind; [apply dec_byte|]. eapply dec_last; [apply dec_byte|].
    assert (GP : Z.land (h_ptype h) 31 = h_ptype h).
    { change 31 with (Z.ones 5). rewrite Z.land_ones by lia. apply Z.mod_small. exact PT. }
    assert (G : get_bits (rpc_flags h) 1 1 = h_last h /\ get_bits (rpc_flags h) 2 1 = h_frag h /\ get_bits (rpc_flags h) 3 1 = h_nofack h /\
      get_bits (rpc_flags h) 4 1 = h_maybe h /\ get_bits (rpc_flags h) 5 1 = h_idem h /\ get_bits (rpc_flags h) 6 1 = h_bcast h).
    { unfold rpc_flags. destruct F1 as [->| ->], F2 as [->| ->], F3 as [->| ->], F4 as [->| ->], F5 as [->| ->], F6 as [->| ->]; repeat split; reflexivity. }
    destruct G as (-> & -> & -> & -> & -> & ->). rewrite GP. change (get_bits 0 1 1) with 0. f_equal.
    unfold be. clear - Hc Hf. destruct h; cbn in *. subst. reflexivity.
Qed.
Print Assumptions C28_rpc_header.

(** Write results: the fields that identify the write, as in the request. *)
Definition rwreq_ok (q : rwreq) : Prop :=
  0 <= q_seq q < 65536 /\ uuid_ok (q_uuid q) /\ 0 <= q_api q < 4294967296 /\ 0 <= q_slot q < 65536 /\
  0 <= q_subslot q < 65536 /\ 0 <= q_index q < 65536 /\ 0 <= q_len q < 4294967296.

Lemma enc_padding : forall n, enc (put_padding n) (repeat 0 n).
Proof.
  induction n as [|n IH]; cbn [put_padding repeat]; [apply enc_skip|].
  change (0 :: repeat 0 n) with ([0] ++ repeat 0 n). apply enc_seq; [apply enc_byte; unfold byte; lia|exact IH].
Qed.

Lemma dec_skip : forall be l, dec be be (skip_bytes (length l)) l tt.
Proof.
  intros be l. induction l as [|x l IH]; cbn [skip_bytes length]; [apply dec_ret|].
  change (x :: l) with ([x] ++ l). eapply dec_bind; [apply dec_byte|exact IH].
Qed.

Theorem C28_write_result : forall be q a1 a2 s old, rwreq_ok q -> 0 <= a1 < 65536 -> 0 <= a2 < 65536 -> pnio_ok s -> length old = 8%nat ->
  round_trip be be (put_write_result be q a1 a2 s) (get_block (get_write_request old)) (mkBhead 32776 60 1 0, q) 64.
Proof.
  intros be q a1 a2 s old (A & U & B & C & D & E & F) A1 A2 S1 L. unfold put_write_result.
  pose proof (euuid_length be (q_uuid q) U) as LU.
  apply (block_rt _ be be _ _ 32776
    (e16 be (q_seq q) ++ euuid be (q_uuid q) ++ e32 be (q_api q) ++ e16 be (q_slot q) ++ e16 be (q_subslot q) ++ [0] ++ [0] ++
     e16 be (q_index q) ++ e32 be (q_len q) ++ e16 be a1 ++ e16 be a2 ++ epnio be s ++ repeat 0 16) q 58).
  - lia.
  - unfold epnio. rewrite !app_length, LU, !e32_length, !e16_length, repeat_length. reflexivity.
  - lia.
  - repeat (apply enc_seq; [enc1|]).
    apply enc_padding.
  - unfold get_write_request.
    eapply dec_bind; [apply dec_u16; assumption|]. eapply dec_bind; [apply dec_uuid; assumption|].
    eapply dec_bind; [apply dec_u32; assumption|]. eapply dec_bind; [apply dec_u16; assumption|]. eapply dec_bind; [apply dec_u16; assumption|].
    rewrite app_assoc. eapply dec_bind; [apply (dec_skip be ([0] ++ [0]))|].
    eapply dec_bind; [apply dec_u16; assumption|]. eapply dec_bind; [apply dec_u32; assumption|].
    assert (LT : length (e16 be a1 ++ e16 be a2 ++ epnio be s ++ repeat 0 16) = 24%nat)
      by (unfold epnio; rewrite !app_length, !e32_length, !e16_length, repeat_length; reflexivity).
    rewrite <- LT. eapply dec_last; [apply dec_skip|]. destruct q; reflexivity.
Qed.
Print Assumptions C28_write_result.

(** Peer to peer boundary of a port. *)
Definition boundary_ok (d : boundary) : Prop :=
  flag (bd_lldp d) /\ flag (bd_ptcp d) /\ flag (bd_path d) /\ 0 <= bd_props d < 65536.

Theorem C28_boundary : forall be d, boundary_ok d ->
  round_trip be be (put_boundary be d) (get_block (rdo x <- get_boundary; rdo _ <- skip_bytes 2; rret x)) (mkBhead 548 12 1 0, d) 16.
Proof.
  intros be d (A & B & C & P). unfold put_boundary.
  set (v := put_bits (bd_path d) 1 2 (put_bits (bd_ptcp d) 1 1 (put_bits (bd_lldp d) 1 0 0))).
  assert (V : 0 <= v < 8 /\ get_bits v 0 1 = bd_lldp d /\ get_bits v 1 1 = bd_ptcp d /\ get_bits v 2 1 = bd_path d).
  { unfold v. destruct A as [->| ->], B as [->| ->], C as [->| ->]; repeat split; try reflexivity; cbn; lia. }
  clearbody v. destruct V as (V & V1 & V2 & V3).
  apply (block_rt _ be be _ _ 548 (repeat 0 2 ++ e32 be v ++ e16 be (bd_props d) ++ repeat 0 2) d 10).
  - lia.
  - rewrite !app_length, e32_length, e16_length. reflexivity.
  - lia.
  - apply enc_seq; [apply enc_padding|]. apply enc_seq; [apply enc_u32; lia|]. apply enc_seq; [apply enc_u16; exact P|]. apply enc_padding.
  - replace (repeat 0 2 ++ e32 be v ++ e16 be (bd_props d) ++ repeat 0 2) with
      ((repeat 0 2 ++ e32 be v ++ e16 be (bd_props d)) ++ repeat 0 2) by (rewrite <- !app_assoc; reflexivity).
    eapply dec_bind.
    + unfold get_boundary. eapply dec_bind.
      * instantiate (1 := repeat 0 2 ++ [0; 0]).
        intros pre post len L M N. unfold get_mem_into. rewrite C27_mem by (rewrite ?app_length in *; cbn [repeat length] in *; lia).
        destruct (Z.leb_spec (Z.of_nat (length pre) + 2) len); [|cbn [repeat length] in *; lia]. cbn [obind].
        rewrite Nat2Z.id, skipn_app, skipn_all, Nat.sub_diag. cbn [skipn app repeat]. cbn. do 3 f_equal. lia.
      * eapply dec_bind; [apply dec_u32; lia|]. eapply dec_last; [apply dec_u16; exact P|]. rewrite V1, V2, V3. reflexivity.
    + eapply dec_last; [apply (dec_skip be (repeat 0 2))|]. destruct d; reflexivity.
Qed.
Print Assumptions C28_boundary.

(** * Writing stays inside the buffer *)

(** Specification: for any contents, size and position (no assumption that there
    is room), nothing outside [pos, len) changes and the position stays within the
    size. *)
Definition stays_inside (f : writer) : Prop :=
  forall b len pos, 0 <= pos <= len -> len <= Z.of_nat (length b) -> len < 65534 ->
  exists b' pos', f (mkWr (Some b) len pos) = Ok (mkWr (Some b') len pos') /\ pos <= pos' <= len /\
    length b' = length b /\
    forall i, (i < Z.to_nat pos)%nat \/ (Z.to_nat len <= i)%nat -> nth i b' 0 = nth i b 0.

Lemma inside_mem : forall l, stays_inside (put_mem l).
Proof.
  intros l b len pos P L N. unfold put_mem. cbn [w_len w_pos w_buf].
  destruct (Z.ltb_spec len (pos + Z.of_nat (length l))).
  - exists b, pos. repeat split; auto; lia.
  - rewrite poke_ok by lia. cbn [obind].
    rewrite u16_id by lia. eexists _, _. split; [reflexivity|]. split; [lia|].
    change (firstn (Z.to_nat pos) b ++ l ++ skipn (Z.to_nat pos + length l) b) with (put_at b (Z.to_nat pos) l).
    split; [apply put_at_length; lia|]. intros i Hi.
    assert (PK : poke b pos l = Ok (put_at b (Z.to_nat pos) l)) by (unfold put_at; apply poke_ok; lia).
    rewrite (nth_poke _ _ _ _ i PK).
    destruct (Nat.leb_spec (Z.to_nat pos) i); destruct (Nat.ltb_spec i (Z.to_nat pos + length l)); cbn [andb]; try reflexivity; lia.
Qed.

Lemma put_byte_mem : forall v w, put_byte v w = put_mem [u8 v] w.
Proof. reflexivity. Qed.

Lemma inside_byte : forall v, stays_inside (put_byte v).
Proof. intros v. exact (inside_mem [u8 v]). Qed.

Lemma inside_seq : forall f g, stays_inside f -> stays_inside g -> stays_inside (f ;; g).
Proof.
  intros f g F G b len pos P L N. unfold wseq.
  destruct (F b len pos P L N) as (b1 & p1 & E1 & Q1 & L1 & K1). rewrite E1. cbn [obind].
  destruct (G b1 len p1 ltac:(lia) ltac:(lia) N) as (b2 & p2 & E2 & Q2 & L2 & K2).
  exists b2, p2. split; [exact E2|]. split; [lia|]. split; [congruence|].
  intros i Hi. rewrite K2 by lia. apply K1. exact Hi.
Qed.

Lemma inside_skip : stays_inside wskip.
Proof. intros b len pos P L N. exists b, pos. repeat split; auto; lia. Qed.

Lemma inside_u16 : forall be v, stays_inside (put_u16 be v).
Proof. intros be v. unfold put_u16. destruct be; apply inside_seq; apply inside_byte. Qed.

Lemma inside_u32 : forall be v, stays_inside (put_u32 be v).
Proof. intros be v. unfold put_u32. destruct be; repeat (apply inside_seq; [apply inside_byte|]); apply inside_byte. Qed.

Lemma inside_uuid : forall be u, stays_inside (put_uuid be u).
Proof.
  intros. unfold put_uuid. apply inside_seq; [apply inside_u32|]. apply inside_seq; [apply inside_u16|].
  apply inside_seq; [apply inside_u16|apply inside_mem].
Qed.

Lemma inside_padding : forall n, stays_inside (put_padding n).
Proof. induction n; cbn [put_padding]; [apply inside_skip|]. apply inside_seq; [apply inside_byte|exact IHn]. Qed.

Lemma inside_block : forall be ty body, stays_inside body -> stays_inside (put_block be ty body).
Proof.
  intros be ty body B b len pos P L N. unfold put_block. cbn [w_pos].
  assert (H1 : stays_inside (put_block_header be ty 0 1 0 ;; body)).
  { apply inside_seq; [|exact B]. unfold put_block_header.
    apply inside_seq; [apply inside_u16|]. apply inside_seq; [apply inside_u16|]. apply inside_seq; apply inside_byte. }
  destruct (H1 b len pos P L N) as (b1 & p1 & E1 & Q1 & L1 & K1).
  assert (X : (put_block_header be ty 0 1 0 ;; body ;; put_block_len be pos) (mkWr (Some b) len pos)
    = do w <- (put_block_header be ty 0 1 0 ;; body) (mkWr (Some b) len pos); put_block_len be pos w).
  { unfold wseq. destruct (put_block_header be ty 0 1 0 (mkWr (Some b) len pos)); reflexivity. }
  rewrite X, E1. cbn [obind]. unfold put_block_len. cbn [w_buf w_len w_pos].
  rewrite (u16_id (pos + 2)) by lia.
  set (v := u16 (p1 - (pos + 4))). clearbody v.
  destruct (Z.le_gt_cases (pos + 2) len) as [H|H].
  - destruct (inside_u16 be v b1 len (pos + 2) ltac:(lia) ltac:(lia) N) as (b2 & p2 & E2 & Q2 & L2 & K2).
    rewrite E2. cbn [obind w_buf w_len]. exists b2, p1. split; [reflexivity|]. split; [lia|]. split; [congruence|].
    intros i Hi. rewrite K2 by lia. apply K1. exact Hi.
  - assert (E2 : put_u16 be v (mkWr (Some b1) len (pos + 2)) = Ok (mkWr (Some b1) len (pos + 2))).
    { assert (Y : forall x, put_byte x (mkWr (Some b1) len (pos + 2)) = Ok (mkWr (Some b1) len (pos + 2))).
      { intros x. unfold put_byte. cbn [w_len w_pos]. destruct (Z.ltb_spec len (pos + 2 + 1)); [reflexivity|lia]. }
      unfold put_u16, wseq. destruct be; rewrite Y; cbn [obind]; apply Y. }
    rewrite E2. cbn [obind w_buf w_len]. exists b1, p1. repeat split; auto; lia.
Qed.

Lemma inside_str : forall s size, Z.of_nat (length s) < size -> stays_inside (put_str s size).
Proof.
  intros s size S1 b len pos P L N. unfold put_str. cbn [w_len w_pos w_buf].
  destruct (Z.ltb_spec len (pos + size)).
  - exists b, pos. repeat split; auto; lia.
  - pose proof (inside_mem s b len pos P L N) as (b1 & p1 & E1 & Q1 & L1 & K1). unfold put_mem in E1. cbn [w_len w_pos w_buf] in E1.
    destruct (Z.ltb_spec len (pos + Z.of_nat (length s))); [lia|].
    destruct (poke b pos s) as [b0| |] eqn:EP; cbn [obind] in *; try discriminate.
    assert (b0 = b1 /\ u16 (pos + Z.of_nat (length s)) = p1) as [-> ->] by (split; congruence).
    set (sp := fix spaces (n : nat) : writer := match n with O => wskip | S k => put_byte 32 ;; spaces k end).
    assert (I : forall n, stays_inside (sp n)).
    { induction n; cbn; [apply inside_skip|]. apply inside_seq; [apply inside_byte|exact IHn]. }
    destruct (I (Z.to_nat (size - 1) - length s)%nat b1 len p1 ltac:(lia) ltac:(lia) N) as (b2 & p2 & E2 & Q2 & L2 & K2).
    exists b2, p2. split; [exact E2|]. split; [lia|]. split; [congruence|]. intros i Hi. rewrite K2 by lia. apply K1. exact Hi.
Qed.

(** Every primitive, every sequence, every block made from them. *)
Inductive wprog :=
| WByte (v : Z) | WU16 (be : bool) (v : Z) | WU32 (be : bool) (v : Z) | WMem (l : list Z) | WUuid (be : bool) (u : uuid)
| WPad (n : nat) | WStr (s : list Z) (room : nat)
| WSeq (a b : wprog) | WBlock (be : bool) (ty : Z) (body : wprog).

Fixpoint run_wprog (p : wprog) : writer :=
  match p with
  | WByte v => put_byte v
  | WU16 be v => put_u16 be v
  | WU32 be v => put_u32 be v
  | WMem l => put_mem l
  | WUuid be u => put_uuid be u
  | WPad n => put_padding n
  | WStr s room => put_str s (Z.of_nat (length s + 1 + room))
  | WSeq a b => run_wprog a ;; run_wprog b
  | WBlock be ty body => put_block be ty (run_wprog body)
  end.

Theorem C28_writing_stays_inside : forall p b len pos,
  0 <= pos <= len -> len <= Z.of_nat (length b) -> len < 65534 ->
  exists b' pos', run_wprog p (mkWr (Some b) len pos) = Ok (mkWr (Some b') len pos') /\ pos <= pos' <= len /\
    length b' = length b /\
    forall i, (i < Z.to_nat pos)%nat \/ (Z.to_nat len <= i)%nat -> nth i b' 0 = nth i b 0.
Proof.
  intros p. change (stays_inside (run_wprog p)).
  induction p; cbn [run_wprog].
  - apply inside_byte.
  - apply inside_u16.
  - apply inside_u32.
  - apply inside_mem.
  - apply inside_uuid.
  - apply inside_padding.
  - apply inside_str. lia.
  - apply inside_seq; assumption.
  - apply inside_block; assumption.
Qed.
Print Assumptions C28_writing_stays_inside.

Theorem C28_writers_stay_inside : forall be ty k a d payload q a1 a2 s h bd,
  stays_inside payload ->
  stays_inside (put_control be ty k) /\ stays_inside (put_alarm_fixed be a) /\ stays_inside (put_alarm_notification be ty d payload) /\
  stays_inside (put_pnet_status be s) /\ stays_inside (put_write_result be q a1 a2 s) /\ stays_inside (put_dce_rpc_header h) /\
  stays_inside (put_boundary be bd).
Proof.
  intros. unfold put_control, put_alarm_fixed, put_alarm_notification, put_write_result, put_dce_rpc_header, put_boundary, put_pnet_status.
  refine (conj _ (conj _ (conj _ (conj _ (conj _ (conj _ _)))))); cbn zeta;
  try match goal with |- stays_inside (put_block _ _ _) => apply inside_block end;
  repeat (apply inside_seq; [first [apply inside_byte|apply inside_u16|apply inside_u32|apply inside_uuid|apply inside_padding]|]);
  first [apply inside_byte|apply inside_u16|apply inside_u32|apply inside_padding|apply inside_skip|assumption].
Qed.
Print Assumptions C28_writers_stay_inside.

Example C28_ex : exists b', put_control true 33042 (mkControl (mkUuid 1 2 3 [4;5;6;7;8;9;10;11]) 12 8 0 0) (mkWr (Some (repeat 0 40)) 40 4)
  = Ok (mkWr (Some b') 40 36) /\
  b' = [0;0;0;0; 129;18; 0;28; 1;0; 0;0; 0;0;0;1; 0;2; 0;3; 4;5;6;7;8;9;10;11; 0;12; 0;0; 0;8; 0;0; 0;0;0;0].
Proof. eexists. split; [vm_compute; reflexivity|reflexivity]. Qed.

(** * C46: alignment padding *)

(** With room for the padding it ends: [align - 1] steps are enough, only zero
    bytes are appended, and the result is aligned. *)
Theorem C46_padding_aligns : forall align start b len pos,
  0 < align -> 0 <= start <= pos -> pos + align - 1 <= len -> len <= Z.of_nat (length b) -> len < 65536 ->
  exists n w', (n < Z.to_nat align)%nat /\
    put_padding_align (Z.to_nat align) start align (mkWr (Some b) len pos) = Some (Ok w') /\
    w_pos w' = pos + Z.of_nat n /\ (w_pos w' - start) mod align = 0 /\
    w_buf w' = Some (put_at b (Z.to_nat pos) (repeat 0 n)).
Proof.
  intros align start b len pos A S1 L M N.
  pose proof (Z.mod_pos_bound (start - pos) align A) as R.
  assert (G : forall fuel k b pos, Z.of_nat k < align -> (k <= fuel)%nat -> start <= pos -> 0 <= pos ->
    pos + Z.of_nat k <= len -> len <= Z.of_nat (length b) -> (pos + Z.of_nat k - start) mod align = 0 ->
    exists w', put_padding_align fuel start align (mkWr (Some b) len pos) = Some (Ok w') /\ w_pos w' = pos + Z.of_nat k /\
      w_buf w' = Some (put_at b (Z.to_nat pos) (repeat 0 k))).
  { induction fuel as [|fuel IH]; intros k b0 p K F Q1 Q2 Q3 Q4 Q5.
    - assert (k = 0%nat) by lia. subst k. cbn [put_padding_align w_pos]. rewrite Z.rem_mod_nonneg by lia.
      replace (p - start) with (p + Z.of_nat 0 - start) by lia. rewrite Q5. cbn [Z.eqb].
      eexists. split; [reflexivity|]. cbn [w_pos w_buf]. split; [lia|]. cbn [repeat]. unfold put_at. cbn [length app].
      rewrite Nat.add_0_r, firstn_skipn. reflexivity.
    - cbn [put_padding_align w_pos]. rewrite Z.rem_mod_nonneg by lia.
      destruct (Z.eqb_spec ((p - start) mod align) 0) as [E|E].
      + assert (k = 0%nat).
        { destruct k as [|k]; [reflexivity|]. exfalso.
          replace (p + Z.of_nat (S k) - start) with ((p - start) + Z.of_nat (S k)) in Q5 by lia.
          rewrite Z.add_mod, E, Z.add_0_l, Z.mod_mod in Q5 by lia. rewrite Z.mod_small in Q5 by lia. lia. }
        subst k. eexists. split; [reflexivity|]. cbn [w_pos w_buf]. split; [lia|]. cbn [repeat]. unfold put_at. cbn [length app].
        rewrite Nat.add_0_r, firstn_skipn. reflexivity.
      + destruct k as [|k]; [exfalso; apply E; rewrite <- Q5; f_equal; lia|].
        rewrite (enc_byte 0 ltac:(unfold byte; lia) b0 len p) by (cbn [length]; lia). cbn [length].
        destruct (IH k (put_at b0 (Z.to_nat p) [0]) (p + Z.of_nat 1)) as (w' & X & Y & Z0); try lia.
        * rewrite put_at_length by (cbn [length]; lia). lia.
        * rewrite <- Q5. f_equal. lia.
        * exists w'. split; [exact X|]. split; [lia|]. rewrite Z0. f_equal.
          replace (Z.to_nat (p + Z.of_nat 1)) with (Z.to_nat p + length [0])%nat by (cbn [length]; lia).
          rewrite put_at_app by (cbn [length]; rewrite repeat_length; lia). reflexivity. }
  destruct (G (Z.to_nat align) (Z.to_nat ((start - pos) mod align)) b pos) as (w' & X & Y & Z0); try lia.
  { rewrite Z2Nat.id by lia. replace (pos + (start - pos) mod align - start) with ((start - pos) mod align - (start - pos)) by lia.
    rewrite Zminus_mod, Z.mod_mod, Z.sub_diag by lia. apply Z.mod_0_l. lia. }
  exists (Z.to_nat ((start - pos) mod align)), w'. split; [lia|]. split; [exact X|]. split; [exact Y|]. split; [|exact Z0].
  rewrite Y, Z2Nat.id by lia. replace (pos + (start - pos) mod align - start) with ((start - pos) mod align - (start - pos)) by lia.
  rewrite Zminus_mod, Z.mod_mod, Z.sub_diag by lia. apply Z.mod_0_l. lia.
Qed.
Print Assumptions C46_padding_aligns.

Example C46_ex : put_padding_align 4 0 4 (mkWr (Some (repeat 9 8)) 8 5) = Some (Ok (mkWr (Some [9;9;9;9;9;0;0;0]) 8 8)).
Proof. reflexivity. Qed.

(** Finding: at the end of a full buffer it never ends. *)
Theorem C46_full_buffer_refuted : exists b len pos start align, pos <= len <= Z.of_nat (length b) /\
  forall fuel, put_padding_align fuel start align (mkWr (Some b) len pos) = None.
Proof.
  exists [1; 2; 3], 3, 3, 0, 4. split; [cbn; lia|]. induction fuel as [|fuel IH]; [reflexivity|]. cbn. exact IH.
Qed.
Print Assumptions C46_full_buffer_refuted.

(** In general: whenever the aligned position lies outside the buffer. *)
Theorem C46_no_room_never_ends : forall start align b len pos, 0 < align -> 0 <= start <= pos -> pos <= len ->
  len <= Z.of_nat (length b) -> len < 65536 -> (forall p, pos <= p <= len -> (p - start) mod align <> 0) ->
  forall fuel, put_padding_align fuel start align (mkWr (Some b) len pos) = None.
Proof.
  intros start align b len pos A S1 P L N H fuel. revert b pos S1 P L H.
  induction fuel as [|fuel IH]; intros b pos S1 P L H; cbn [put_padding_align w_pos]; rewrite Z.rem_mod_nonneg by lia;
  destruct (Z.eqb_spec ((pos - start) mod align) 0) as [E|E]; try (exfalso; apply (H pos); [lia|exact E]); [reflexivity|].
  destruct (Z.eq_dec pos len) as [->|Hne].
  - unfold put_byte at 1. cbn [w_len w_pos]. destruct (Z.ltb_spec len (len + 1)); [|lia]. apply IH; auto.
  - rewrite (enc_byte 0 ltac:(unfold byte; lia) b len pos) by (cbn [length]; lia). cbn [length].
    apply IH; try lia.
    + rewrite put_at_length by (cbn [length]; lia). lia.
    + intros p Hp. apply H. lia.
Qed.
Print Assumptions C46_no_room_never_ends.
