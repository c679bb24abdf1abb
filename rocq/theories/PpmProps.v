(** Properties C14-C19 of the cyclic producer. *)
From Coq Require Import List ZArith Arith Bool Lia.
From Verif Require Import Base CpmModel CpmProps PpmModel.
Import ListNotations.
Local Open Scope Z_scope.

(** * Specification *)

(** A cyclic frame on the wire. *)
Definition wire (da sa : list Z) (vid prio fid : Z) (sdu : Z) (data : list Z) (counter status : Z)
  : list Z :=
  da ++ sa ++
  [129; 0] ++                                          (* VLAN 0x8100 *)
  [(prio mod 8) * 32 + (vid mod 4096) / 256; vid mod 256] ++
  [136; 146] ++                                        (* ethertype 0x8892 *)
  [fid / 256; fid mod 256] ++
  data ++ repeat 0 (Z.to_nat sdu - length data) ++
  [counter / 256; counter mod 256; status; 0].

(** Connect parameters as admitted by the device, for a provider CR. *)
Definition in_image (o : iocr) (off len : Z) : Prop := 0 <= off /\ 0 <= len /\ off + len <= o_sdu o.

Record cfg_ok (o : iocr) : Prop := {
  cfg_input : o_input o = true;
  cfg_sa : length (o_sa o) = 6%nat;
  cfg_da : length (o_da o) = 6%nat;
  cfg_len : 0 <= o_inlen o <= o_sdu o;
  cfg_sdu : o_sdu o <= 1440;
  cfg_fid : 0 <= o_fid o < 65536;
  cfg_scf : 1 <= o_scf o;
  cfg_rr : 1 <= o_rr o;
  cfg_cyc : o_scf o * o_rr o <= 61440;
  cfg_desc : forall k d, In (k, d) (o_desc o) ->
    in_image o (d_off d) (d_len d) /\ in_image o (s_off d) (s_len d) /\ in_image o (k_off d) (k_len d)
}.

(** The buffer allocator returns buffers of the requested size. *)
Definition buffers_ok (q : pop) : Prop :=
  match q with QOpen true junk _ _ => length junk = Z.to_nat frame_buffer_size | _ => True end.

(** The producer as its user sees it: since the last successful start, how many
    frames were sent, when it was started, and the values of the status flags
    last set. *)
Record view := mkView {
  v_run : bool; v_sent : nat; v_start : Z;
  v_primary : bool; v_redundancy : bool; v_provider : bool; v_problem : bool
}.

Definition view0 : view := mkView false 0 0 false false false false.

Definition view_step (armed : bool) (v : view) (q : pop) : view :=
  match q with
  | QOpen alloc_ok _ now _ =>
    if v_run v then v
    else if alloc_ok then mkView true 0 now true false false false else v
  | QDset (DPrimary b) => mkView (v_run v) (v_sent v) (v_start v) b (v_redundancy v) (v_provider v) (v_problem v)
  | QDset (DRedundancy b) => mkView (v_run v) (v_sent v) (v_start v) (v_primary v) b (v_provider v) (v_problem v)
  | QDset (DProvider b) => mkView (v_run v) (v_sent v) (v_start v) (v_primary v) (v_redundancy v) b (v_problem v)
  | QDset (DProblem b) => mkView (v_run v) (v_sent v) (v_start v) (v_primary v) (v_redundancy v) (v_provider v) b
  | QTimer _ _ _ =>
    if armed then mkView (v_run v) (S (v_sent v)) (v_start v) (v_primary v) (v_redundancy v) (v_provider v) (v_problem v)
    else v
  | QClose => mkView false (v_sent v) (v_start v) (v_primary v) (v_redundancy v) (v_provider v) (v_problem v)
  | _ => v
  end.

Definition b2z (b : bool) : Z := if b then 1 else 0.

(** The data status byte: data valid is always set; bit 5 is set when there is
    no problem. *)
Definition status_byte (v : view) : Z :=
  b2z (v_primary v) + 2 * b2z (v_redundancy v) + 4 + 16 * b2z (v_provider v) + 32 * b2z (negb (v_problem v)).

(** The counter following [c] for an interval of [i] units of 31.25 us: the
    next multiple of [i]. *)
Definition next_counter (i c : Z) : Z := ((c / i + 1) * i) mod 65536.
Fixpoint counter (i : Z) (n : nat) : Z :=
  match n with O => 0 | S m => next_counter i (counter i m) end.

(** The history of a producer with its view. *)
Inductive phist (o : iocr) : list pop -> psys -> view -> Prop :=
| ph_nil : phist o [] (mkPsys o false []) view0
| ph_snoc : forall qs y v q y', phist o qs y v -> buffers_ok q -> pstep y q = Ok y' ->
    phist o (qs ++ [q]) y' (view_step (y_arm y) v q).

(** ** Layout and last written values *)
Inductive region := RData | RIops | RIocs.

Definition roff (d : iodata) (r : region) : Z :=
  match r with RData => d_off d | RIops => s_off d | RIocs => k_off d end.
Definition rlen (d : iodata) (r : region) : Z :=
  match r with RData => d_len d | RIops => s_len d | RIocs => k_len d end.

(** Different regions share no byte, and no address occurs twice. *)
Definition disjoint_layout (o : iocr) : Prop :=
  (forall k d k' d' r r', In (k, d) (o_desc o) -> In (k', d') (o_desc o) ->
     (k, r) <> (k', r') ->
     roff d r + rlen d r <= roff d' r' \/ roff d' r' + rlen d' r' <= roff d r) /\
  NoDup (map fst (o_desc o)).

(** Effect of one call on the last value written to region [r] of sub-slot [k],
    whose descriptor is [d]. *)
Definition last_step (k : Z * Z * Z) (d : iodata) (r : region) (x : list Z) (q : pop) : list Z :=
  match q with
  | QSetData k' w iops =>
    if key_eqb k' k && (wlen w =? d_len d) && (Z.of_nat (length iops) =? s_len d) then
      match r, w with
      | RData, WBytes bs => bs
      | RIops, _ => iops
      | _, _ => x
      end
    else x
  | QSetIocs k' iocs =>
    if key_eqb k' k && (Z.of_nat (length iocs) =? k_len d) then
      match r with RIocs => iocs | _ => x end
    else x
  | _ => x
  end.

Definition last_written (k : Z * Z * Z) (d : iodata) (r : region) (qs : list pop) : list Z :=
  fold_left (last_step k d r) qs (repeat 0 (Z.to_nat (rlen d r))).

(** * Lemmas: memory *)

Lemma poke_ok : forall l off bs, 0 <= off -> off + Z.of_nat (length bs) <= Z.of_nat (length l) ->
  poke l off bs = Ok (firstn (Z.to_nat off) l ++ bs ++ skipn (Z.to_nat off + length bs) l).
Proof.
  intros l off bs A B. unfold poke.
  destruct (Z.leb_spec 0 off); [|lia].
  destruct (Z.leb_spec (off + Z.of_nat (length bs)) (Z.of_nat (length l))); [|lia]. reflexivity.
Qed.

Lemma poke_inv : forall l off bs l', poke l off bs = Ok l' ->
  0 <= off /\ off + Z.of_nat (length bs) <= Z.of_nat (length l) /\
  l' = firstn (Z.to_nat off) l ++ bs ++ skipn (Z.to_nat off + length bs) l.
Proof.
  intros l off bs l' H. unfold poke in H.
  destruct (Z.leb_spec 0 off); [|discriminate].
  destruct (Z.leb_spec (off + Z.of_nat (length bs)) (Z.of_nat (length l))); [|discriminate].
  simpl in H. injection H as <-. auto.
Qed.

Lemma poke_len : forall l off bs l', poke l off bs = Ok l' -> length l' = length l.
Proof.
  intros l off bs l' H. apply poke_inv in H. destruct H as (A & B & ->).
  rewrite !app_length, firstn_length, skipn_length. lia.
Qed.

Lemma poke_app : forall a b c b' off, off = Z.of_nat (length a) -> length b' = length b ->
  poke (a ++ b ++ c) off b' = Ok (a ++ b' ++ c).
Proof.
  intros a b c b' off -> L. rewrite poke_ok by (rewrite ?app_length; lia).
  f_equal. rewrite Nat2Z.id. rewrite firstn_app, Nat.sub_diag, firstn_all. cbn [firstn].
  rewrite app_nil_r. f_equal. f_equal. rewrite L.
  rewrite skipn_app. replace (length a + length b - length a)%nat with (length b) by lia.
  rewrite skipn_all2 by lia. cbn [app].
  rewrite skipn_app, Nat.sub_diag, skipn_all2 by lia. reflexivity.
Qed.

Lemma nth_poke : forall l off bs l' i, poke l off bs = Ok l' ->
  nth i l' 0 = if (Z.to_nat off <=? i)%nat && (i <? Z.to_nat off + length bs)%nat
               then nth (i - Z.to_nat off) bs 0 else nth i l 0.
Proof.
  intros l off bs l' i H. apply poke_inv in H. destruct H as (A & B & ->).
  assert (Lf : length (firstn (Z.to_nat off) l) = Z.to_nat off) by (rewrite firstn_length; lia).
  destruct (Nat.leb_spec (Z.to_nat off) i) as [C|C].
  - destruct (Nat.ltb_spec i (Z.to_nat off + length bs)) as [D|D]; cbn [andb].
    + rewrite app_nth2 by lia. rewrite Lf. rewrite app_nth1 by lia. reflexivity.
    + rewrite app_nth2 by lia. rewrite Lf. rewrite app_nth2 by lia.
      rewrite <- (firstn_skipn (Z.to_nat off + length bs) l) at 2.
      rewrite app_nth2; rewrite firstn_length; [|lia]. f_equal. lia.
  - cbn [andb]. rewrite app_nth1 by lia.
    rewrite <- (firstn_skipn (Z.to_nat off) l) at 2. rewrite app_nth1 by lia. reflexivity.
Qed.

Lemma list_ext : forall (l l' : list Z), length l = length l' ->
  (forall i, (i < length l)%nat -> nth i l 0 = nth i l' 0) -> l = l'.
Proof. intros l l' L H. apply (nth_ext l l' 0 0); auto. Qed.

Lemma nth_slice : forall l off len r i, slice l off len = Ok r -> (i < Z.to_nat len)%nat ->
  nth i r 0 = nth (Z.to_nat off + i) l 0.
Proof.
  intros l off len r i H L. apply slice_inv in H. destruct H as (A & B & C & ->).
  rewrite <- (firstn_skipn (Z.to_nat off) l) at 2.
  rewrite app_nth2; rewrite firstn_length; [|lia].
  replace (Z.to_nat off + i - Nat.min (Z.to_nat off) (length l))%nat with i by lia.
  rewrite <- (firstn_skipn (Z.to_nat len) (skipn (Z.to_nat off) l)) at 2.
  rewrite app_nth1; [reflexivity|]. rewrite firstn_length, skipn_length. lia.
Qed.

Lemma slice_len : forall l off len r, slice l off len = Ok r -> length r = Z.to_nat len.
Proof.
  intros l off len r H. apply slice_inv in H. destruct H as (A & B & C & ->).
  rewrite firstn_length, skipn_length. lia.
Qed.

Lemma slice_poke_same : forall l off bs l', poke l off bs = Ok l' ->
  slice l' off (Z.of_nat (length bs)) = Ok bs.
Proof.
  intros l off bs l' H. pose proof (poke_len _ _ _ _ H) as L.
  pose proof (poke_inv _ _ _ _ H) as (A & B & E).
  destruct (slice l' off (Z.of_nat (length bs))) as [r| |] eqn:S;
    try (rewrite slice_ok in S by lia; discriminate).
  f_equal. pose proof (slice_len _ _ _ _ S) as Lr. rewrite Nat2Z.id in Lr.
  apply list_ext; [lia|]. intros i Hi.
  rewrite (nth_slice _ _ _ _ _ S) by lia. rewrite (nth_poke _ _ _ _ _ H).
  destruct (Nat.leb_spec (Z.to_nat off) (Z.to_nat off + i)); [|lia].
  destruct (Nat.ltb_spec (Z.to_nat off + i) (Z.to_nat off + length bs)); [|lia].
  cbn [andb]. f_equal. lia.
Qed.

Lemma slice_poke_other : forall l off bs l' o n, poke l off bs = Ok l' -> 0 <= n ->
  o + n <= off \/ off + Z.of_nat (length bs) <= o ->
  slice l' o n = slice l o n.
Proof.
  intros l off bs l' o n H Hn D. pose proof (poke_len _ _ _ _ H) as L.
  pose proof (poke_inv _ _ _ _ H) as (A & B & _).
  destruct (slice l o n) as [r| |] eqn:S.
  - pose proof (slice_inv _ _ _ _ S) as (P1 & P2 & P3 & _).
    destruct (slice l' o n) as [r'| |] eqn:S';
      try (rewrite slice_ok in S' by lia; discriminate).
    f_equal. pose proof (slice_len _ _ _ _ S). pose proof (slice_len _ _ _ _ S').
    apply list_ext; [lia|]. intros i Hi.
    rewrite (nth_slice _ _ _ _ _ S), (nth_slice _ _ _ _ _ S') by lia.
    rewrite (nth_poke _ _ _ _ _ H).
    destruct (Nat.leb_spec (Z.to_nat off) (Z.to_nat o + i)); [|reflexivity].
    destruct (Nat.ltb_spec (Z.to_nat o + i) (Z.to_nat off + length bs)); [|reflexivity].
    lia.
  - unfold slice in S. destruct ((0 <=? o) && (0 <=? n) && (o + n <=? Z.of_nat (length l))); discriminate.
  - unfold slice in *. rewrite L. destruct ((0 <=? o) && (0 <=? n) && (o + n <=? Z.of_nat (length l))); [discriminate|reflexivity].
Qed.

(** * Lemmas: numbers *)

Lemma be16_bytes : forall x, 0 <= x < 65536 -> be16 x = [x / 256; x mod 256].
Proof. intros x H. unfold be16. rewrite u16_id by lia. reflexivity. Qed.

Lemma tag_bytes : forall vid prio, 
  be16 (u16 (Z.lor (Z.land vid 4095) (Z.shiftl (Z.land prio 7) 13))) =
  [(prio mod 8) * 32 + (vid mod 4096) / 256; vid mod 256].
Proof.
  intros vid prio.
  change 4095 with (Z.ones 12). change 7 with (Z.ones 3).
  rewrite !Z.land_ones by lia. change (2 ^ 12) with 4096. change (2 ^ 3) with 8.
  rewrite Z.shiftl_mul_pow2 by lia. change (2 ^ 13) with 8192.
  pose proof (Z.mod_pos_bound vid 4096 ltac:(lia)). pose proof (Z.mod_pos_bound prio 8 ltac:(lia)).
  set (a := vid mod 4096) in *. set (b := prio mod 8) in *.
  assert (E : Z.lor a (b * 8192) = a + b * 8192).
  { assert (L0 : Z.land a (b * 8192) = 0);
      [|rewrite Z.add_nocarry_lxor, Z.lxor_lor by exact L0; reflexivity].
    apply Z.bits_inj'. intros n Hn. rewrite Z.land_spec, Z.bits_0.
    destruct (Z.ltb_spec n 0); [rewrite Z.testbit_neg_r by lia; reflexivity|].
    destruct (Z.ltb_spec n 13).
    - replace (b * 8192) with (b * 2 ^ 13) by reflexivity.
      rewrite Z.mul_pow2_bits_low by lia. apply andb_false_r.
    - destruct (Z.eq_dec a 0) as [->|N0]; [rewrite Z.bits_0; reflexivity|].
      rewrite (Z.bits_above_log2 a n); [reflexivity|lia|].
      apply (Z.lt_le_trans _ 12); [|lia]. apply Z.log2_lt_pow2; lia. }
  rewrite E. assert (R : 0 <= a + b * 8192 < 65536) by lia.
  rewrite u16_id by lia. rewrite be16_bytes by lia. f_equal.
  - replace (a + b * 8192) with (a + (b * 32) * 256) by lia.
    rewrite Z.div_add by lia. lia.
  - f_equal. replace (a + b * 8192) with (a + (b * 32) * 256) by lia.
    rewrite Z.mod_add by lia. unfold a.
    rewrite <- (Znumtheory.Zmod_div_mod 256 4096 vid); [reflexivity|lia|lia|].
    exists 16. reflexivity.
Qed.

Lemma next_cycle_ok : forall prev scf rr, 0 <= prev < 65536 -> 1 <= scf -> 1 <= rr ->
  scf * rr <= 61440 -> next_cycle prev scf rr = Ok (next_counter (scf * rr) prev).
Proof.
  intros prev scf rr H A B C. unfold next_cycle, next_counter.
  assert (1 <= scf * rr) by nia. rewrite (u32_id (scf * rr)) by lia.
  destruct (Z.eqb_spec (scf * rr) 0); [lia|].
  assert (D : 0 <= prev / (scf * rr) <= prev)
    by (split; [apply Z.div_pos; lia|apply Z.div_le_upper_bound; nia]).
  rewrite (u16_id (prev / (scf * rr))) by lia.
  assert (E : (scf * rr) * (prev / (scf * rr)) <= prev) by (apply Z.mul_div_le; lia).
  rewrite u32_id by nia. reflexivity.
Qed.

Lemma next_counter_range : forall i c, 0 <= next_counter i c < 65536.
Proof. intros. apply Z.mod_pos_bound. lia. Qed.

Lemma counter_range : forall i n, 0 <= counter i n < 65536.
Proof. intros i [|n]; simpl; [lia|apply next_counter_range]. Qed.

(** * Lemmas: the data status byte *)

Lemma put_bit_spec : forall x b v m, 0 <= b < 8 -> 0 <= x < 256 -> 0 <= m ->
  Z.testbit (put_bit x b v) m = if m =? b then v else Z.testbit x m.
Proof.
  intros x b v m Hb Hx Hm. unfold put_bit, u8. change 256 with (2 ^ 8).
  assert (Hh : forall k, 8 <= k -> Z.testbit x k = false).
  { intros k Hk. destruct (Z.eq_dec x 0) as [->|]; [apply Z.bits_0|].
    apply Z.bits_above_log2; [lia|]. apply (Z.lt_le_trans _ 8); [|lia].
    apply Z.log2_lt_pow2; lia. }
  destruct v.
  - destruct (Z.ltb_spec m 8).
    + rewrite Z.mod_pow2_bits_low by lia. rewrite Z.lor_spec, Z.pow2_bits_eqb by lia.
      rewrite (Z.eqb_sym m b). destruct (b =? m); [apply orb_true_r|apply orb_false_r].
    + rewrite Z.mod_pow2_bits_high by lia. destruct (Z.eqb_spec m b); [lia|]. symmetry; auto.
  - destruct (Z.ltb_spec m 8).
    + rewrite Z.mod_pow2_bits_low by lia. rewrite Z.land_spec, Z.lnot_spec, Z.pow2_bits_eqb by lia.
      rewrite (Z.eqb_sym m b). destruct (b =? m); [apply andb_false_r|apply andb_true_r].
    + rewrite Z.mod_pow2_bits_high by lia. destruct (Z.eqb_spec m b); [lia|]. symmetry; auto.
Qed.

Lemma put_bit_range : forall x b v, 0 <= put_bit x b v < 256.
Proof. intros x b v. unfold put_bit. destruct v; apply u8_range. Qed.

Lemma status_byte_dset : forall v s,
  apply_dset (status_byte v) s = status_byte (view_step false v (QDset s)).
Proof.
  intros [r n t a b c d] s.
  destruct s as [x|x|x|x]; destruct a, b, c, d, x; vm_compute; reflexivity.
Qed.

(** * The invariant *)

Definition wire_hdr (o : iocr) : list Z :=
  o_da o ++ o_sa o ++ [129; 0] ++
  [(o_prio o mod 8) * 32 + (o_vid o mod 4096) / 256; o_vid o mod 256] ++
  [136; 146] ++ [o_fid o / 256; o_fid o mod 256].

Record pinv (o : iocr) (y : psys) (v : view) : Prop := {
  pi_cfg : y_o y = set_ppm o (o_ppm (y_o y));
  pi_img : length (p_image (o_ppm (y_o y))) = 1500%nat;
  pi_state : p_state (o_ppm (y_o y)) = (if v_run v then PRun else PWStart);
  pi_ci : p_ci (o_ppm (y_o y)) = v_run v;
  pi_alloc : p_alloc (o_ppm (y_o y)) = v_run v;
  pi_arm : v_run v = false -> y_arm y = false;
  pi_run : v_run v = true ->
    let p := o_ppm (y_o y) in
    (exists d t rest, p_send p = wire_hdr o ++ d ++ repeat 0 (Z.to_nat (o_sdu o) - Z.to_nat (o_inlen o)) ++ t ++ rest /\
       length d = Z.to_nat (o_inlen o) /\ length t = 4%nat /\ length (p_send p) = 1500%nat) /\
    p_slen p = o_sdu o + 24 /\
    p_cycle p = counter (o_scf o * o_rr o) (S (v_sent v)) /\
    p_tstat p = 0 /\ p_dstat p = status_byte v /\
    p_bpos p = 20 /\ p_coff p = 20 + o_sdu o /\ p_doff p = 22 + o_sdu o /\ p_toff p = 23 + o_sdu o /\
    p_scf p = o_scf o /\ p_rr p = o_rr o /\ p_int p = o_scf o * o_rr o * 1000 / 32
}.

Lemma wire_hdr_len : forall o, cfg_ok o -> length (wire_hdr o) = 20%nat.
Proof.
  intros o C. unfold wire_hdr. rewrite !app_length, (cfg_sa _ C), (cfg_da _ C). reflexivity.
Qed.

(** What pf_ppm_finish_buffer leaves in the send buffer. *)
Lemma finish_spec : forall o p d t rest cy, cfg_ok o ->
  p_alloc p = true ->
  p_send p = wire_hdr o ++ d ++ repeat 0 (Z.to_nat (o_sdu o) - Z.to_nat (o_inlen o)) ++ t ++ rest ->
  length d = Z.to_nat (o_inlen o) -> length t = 4%nat -> length (p_image p) = 1500%nat ->
  p_bpos p = 20 -> p_coff p = 20 + o_sdu o -> p_doff p = 22 + o_sdu o -> p_toff p = 23 + o_sdu o ->
  p_scf p = o_scf o -> p_rr p = o_rr o -> 0 <= p_cycle p < 65536 ->
  cy = next_counter (o_scf o * o_rr o) (p_cycle p) ->
  finish_buffer p (o_inlen o) =
  Ok (mkPpm (p_state p) (p_next p) (p_sa p) (p_da p) (p_first p)
        (wire_hdr o ++ firstn (Z.to_nat (o_inlen o)) (p_image p) ++
         repeat 0 (Z.to_nat (o_sdu o) - Z.to_nat (o_inlen o)) ++
         [cy / 256; cy mod 256; p_dstat p; p_tstat p] ++ rest)
        (p_slen p) (p_alloc p) cy
        (p_tstat p) (p_dstat p) (p_blen p) (p_bpos p) (p_coff p) (p_doff p) (p_toff p)
        (p_image p) (p_trx p) (p_scf p) (p_rr p) (p_int p) (p_ci p)).
Proof.
  intros o p d t rest cy C Al Sb Ld Lt Li Hb Hc Hd Ht H1 H2 Hcy Ecy.
  pose proof (cfg_len _ C) as CL. pose proof (cfg_sdu _ C) as CS.
  pose proof (wire_hdr_len o C) as LH.
  set (z := repeat 0 (Z.to_nat (o_sdu o) - Z.to_nat (o_inlen o))) in *.
  assert (Lz : length z = (Z.to_nat (o_sdu o) - Z.to_nat (o_inlen o))%nat) by apply repeat_length.
  clearbody z.
  unfold finish_buffer. rewrite Al. cbn [negb].
  rewrite H1, H2, next_cycle_ok by (apply C || auto). rewrite <- Ecy. cbn [obind].
  rewrite slice_ok by lia. cbn [Z.to_nat skipn]. cbn [obind].
  rewrite Sb, Hb. rewrite (poke_app (wire_hdr o) d) by (rewrite ?firstn_length; lia).
  cbn [obind].
  set (x := firstn (Z.to_nat (o_inlen o)) (p_image p)).
  assert (Lx : length x = Z.to_nat (o_inlen o)) by (unfold x; rewrite firstn_length; lia).
  clearbody x.
  destruct t as [|t0 [|t1 [|t2 [|t3 [|]]]]]; try discriminate Lt.
  assert (Rcy : 0 <= cy < 65536) by (subst cy; apply next_counter_range).
  rewrite Hc, be16_bytes by lia.
  replace (wire_hdr o ++ x ++ z ++ [t0; t1; t2; t3] ++ rest)
    with ((wire_hdr o ++ x ++ z) ++ [t0; t1] ++ [t2; t3] ++ rest) by (rewrite <- !app_assoc; reflexivity).
  rewrite poke_app; [|rewrite !app_length; lia|reflexivity]. cbn [obind].
  replace ((wire_hdr o ++ x ++ z) ++ [cy / 256; cy mod 256] ++ [t2; t3] ++ rest)
    with ((wire_hdr o ++ x ++ z ++ [cy / 256; cy mod 256]) ++ [t2] ++ [t3] ++ rest)
    by (rewrite <- !app_assoc; reflexivity).
  rewrite Hd. rewrite poke_app; [|rewrite !app_length; simpl length; lia|reflexivity]. cbn [obind].
  replace ((wire_hdr o ++ x ++ z ++ [cy / 256; cy mod 256]) ++ [p_dstat p] ++ [t3] ++ rest)
    with ((wire_hdr o ++ x ++ z ++ [cy / 256; cy mod 256; p_dstat p]) ++ [t3] ++ rest)
    by (rewrite <- !app_assoc; reflexivity).
  rewrite Ht. rewrite poke_app; [|rewrite !app_length; simpl length; lia|reflexivity]. cbn [obind].
  replace ((wire_hdr o ++ x ++ z ++ [cy / 256; cy mod 256; p_dstat p]) ++ [p_tstat p] ++ rest)
    with (wire_hdr o ++ x ++ z ++ [cy / 256; cy mod 256; p_dstat p; p_tstat p] ++ rest)
    by (rewrite <- !app_assoc; reflexivity).
  reflexivity.
Qed.

Lemma init_buf_spec : forall o p junk, cfg_ok o -> length junk = 1500%nat ->
  p_blen p = o_sdu o + 24 -> p_da p = o_da o -> p_sa p = o_sa o ->
  exists rest, init_buf p junk (o_fid o) (o_vid o) (o_prio o) =
    Ok (wire_hdr o ++ repeat 0 (Z.to_nat (o_inlen o)) ++
        repeat 0 (Z.to_nat (o_sdu o) - Z.to_nat (o_inlen o)) ++ [0; 0; 0; 0] ++ rest) /\
    length rest = (1500 - 24 - Z.to_nat (o_sdu o))%nat.
Proof.
  intros o p junk C Lj Hb Hda Hsa.
  pose proof (cfg_len _ C) as CL. pose proof (cfg_sdu _ C) as CS. pose proof (cfg_fid _ C) as CF.
  pose proof (cfg_da _ C) as LA. pose proof (cfg_sa _ C) as LB.
  unfold init_buf. rewrite Hb, Hda, Hsa.
  rewrite poke_ok by (rewrite ?repeat_length; lia). cbn [obind].
  rewrite repeat_length. change (Z.to_nat 0) with 0%nat.
  set (rest := skipn (0 + Z.to_nat (o_sdu o + 24)) junk).
  assert (Lr : length rest = (1500 - 24 - Z.to_nat (o_sdu o))%nat)
    by (unfold rest; rewrite skipn_length; lia). clearbody rest.
  exists rest. split; [|exact Lr]. rewrite firstn_O. rewrite app_nil_l.
  replace (Z.to_nat (o_sdu o + 24)) with
    (6 + (6 + (2 + (2 + (2 + (2 + (Z.to_nat (o_inlen o) + ((Z.to_nat (o_sdu o) - Z.to_nat (o_inlen o)) + 4))))))))%nat by lia.
  rewrite !repeat_app. change (repeat 0 4) with [0;0;0;0]. rewrite <- !app_assoc.
  set (d := repeat 0 (Z.to_nat (o_inlen o))). set (z := repeat 0 (Z.to_nat (o_sdu o) - _)).
  set (tl := d ++ z ++ [0;0;0;0] ++ rest). clearbody tl.
  pose proof (fun b c b' (L : length b' = length b) => poke_app [] b c b' 0 eq_refl L) as P0.
  cbn [app] in P0.
  rewrite P0; [|rewrite repeat_length; lia]. cbn [obind].
  rewrite poke_app; [|lia|rewrite repeat_length; lia]. cbn [obind].
  rewrite tag_bytes, (be16_bytes 33024), (be16_bytes 34962), (be16_bytes (o_fid o)) by lia.
  change (33024 / 256) with 129. change (33024 mod 256) with 0.
  change (34962 / 256) with 136. change (34962 mod 256) with 146.
  unfold wire_hdr.
  set (tg := [(o_prio o mod 8) * 32 + (o_vid o mod 4096) / 256; o_vid o mod 256]).
  assert (Ltg : length tg = 2%nat) by reflexivity. clearbody tg.
  set (fd := [o_fid o / 256; o_fid o mod 256]). assert (Lfd : length fd = 2%nat) by reflexivity. clearbody fd.
  rewrite (app_assoc (o_da o)). rewrite poke_app; [|rewrite app_length; lia|reflexivity]. cbn [obind].
  rewrite (app_assoc (o_da o ++ o_sa o)).
  rewrite poke_app; [|rewrite !app_length; simpl length; lia|auto]. cbn [obind].
  rewrite (app_assoc ((o_da o ++ o_sa o) ++ _)).
  rewrite poke_app; [|rewrite !app_length; simpl length; lia|reflexivity]. cbn [obind].
  rewrite (app_assoc (((o_da o ++ o_sa o) ++ _) ++ _)).
  rewrite poke_app; [|rewrite !app_length; simpl length; lia|auto].
  rewrite <- !app_assoc. reflexivity.
Qed.

Lemma find_desc_in : forall o k d, o_input o = true -> find_desc o k = Some d -> In (k, d) (o_desc o).
Proof.
  intros o k d I H. unfold find_desc in H. rewrite I in H.
  destruct (find (fun e => key_eqb (fst e) k) (o_desc o)) as [[k' d']|] eqn:F; [|discriminate].
  injection H as <-. apply find_some in F. destruct F as (A & B).
  cbn [fst] in B. destruct k' as ((a, b), c), k as ((a', b'), c'). unfold key_eqb in B.
  rewrite !andb_true_iff, !Z.eqb_eq in B. destruct B as ((-> & ->) & ->). exact A.
Qed.

Lemma key_eqb_true : forall k k', key_eqb k k' = true <-> k = k'.
Proof.
  intros ((a, b), c) ((a', b'), c'). unfold key_eqb. rewrite !andb_true_iff, !Z.eqb_eq.
  split; [intros ((-> & ->) & ->); auto|intros E; injection E; auto].
Qed.

(** Effect of the write operations: never undefined, and only the image changes. *)
Lemma set_data_ok : forall o0 o k w iops, cfg_ok o0 -> o = set_ppm o0 (o_ppm o) ->
  length (p_image (o_ppm o)) = 1500%nat ->
  exists img r, set_data o k w iops = Ok (set_ppm o0 (set_image (o_ppm o) img), r) /\ length img = 1500%nat.
Proof.
  intros o0 o k w iops C E L.
  assert (Id : set_image (o_ppm o) (p_image (o_ppm o)) = o_ppm o) by (destruct (o_ppm o); reflexivity).
  assert (Ep : forall q, set_ppm o q = set_ppm o0 q) by (intros q; rewrite E; reflexivity).
  unfold set_data. destruct (find_desc o k) as [d|] eqn:F.
  - apply find_desc_in in F; [|rewrite E; apply C].
    rewrite E in F. apply (cfg_desc _ C) in F. destruct F as ((A1 & A2 & A3) & (B1 & B2 & B3) & _).
    pose proof (cfg_sdu _ C).
    destruct (Z.eqb_spec (wlen w) (d_len d)) as [Lw|]; cbn [andb].
    + destruct (Z.eqb_spec (Z.of_nat (length iops)) (s_len d)) as [Ls|].
      * assert (P : exists img1, match w with
                     | WBytes bs => poke (p_image (o_ppm o)) (d_off d) bs
                     | WNull _ => Ok (p_image (o_ppm o)) end = Ok img1 /\ length img1 = 1500%nat).
        { destruct w as [bs|n]; [|eauto]. cbn [wlen] in Lw.
          eexists. rewrite poke_ok by lia. split; [reflexivity|].
          erewrite poke_len; [exact L|apply poke_ok; lia]. }
        destruct P as (img1 & -> & L1). cbn [obind].
        rewrite poke_ok by lia. cbn [obind]. eexists. exists 0. split.
        { rewrite Ep. reflexivity. }
        { erewrite poke_len; [exact L1|apply poke_ok; lia]. }
      * exists (p_image (o_ppm o)), (-1). rewrite Id, <- E. auto.
    + exists (p_image (o_ppm o)), (-1). rewrite Id, <- E. auto.
  - exists (p_image (o_ppm o)), (-1). rewrite Id, <- E. auto.
Qed.

Lemma set_iocs_ok : forall o0 o k iocs, cfg_ok o0 -> o = set_ppm o0 (o_ppm o) ->
  length (p_image (o_ppm o)) = 1500%nat ->
  exists img r, set_iocs o k iocs = Ok (set_ppm o0 (set_image (o_ppm o) img), r) /\ length img = 1500%nat.
Proof.
  intros o0 o k iocs C E L.
  assert (Id : set_image (o_ppm o) (p_image (o_ppm o)) = o_ppm o) by (destruct (o_ppm o); reflexivity).
  assert (Ep : forall q, set_ppm o q = set_ppm o0 q) by (intros q; rewrite E; reflexivity).
  unfold set_iocs. destruct (find_desc o k) as [d|] eqn:F.
  - apply find_desc_in in F; [|rewrite E; apply C].
    rewrite E in F. apply (cfg_desc _ C) in F. destruct F as (_ & _ & (A1 & A2 & A3)).
    pose proof (cfg_sdu _ C).
    destruct (Z.eqb_spec (Z.of_nat (length iocs)) (k_len d)) as [Lw|].
    + rewrite poke_ok by lia. cbn [obind]. eexists. exists 0. split.
      { rewrite Ep. reflexivity. }
      { erewrite poke_len; [exact L|apply poke_ok; lia]. }
    + destruct (Z.eqb_spec (k_len d) 0).
      * exists (p_image (o_ppm o)), 0. rewrite Id, <- E. auto.
      * exists (p_image (o_ppm o)), (-1). rewrite Id, <- E. auto.
  - exists (p_image (o_ppm o)), (-1). rewrite Id, <- E. auto.
Qed.

Lemma pinv_image : forall o y v img, pinv o y v -> length img = 1500%nat ->
  pinv o (mkPsys (set_ppm o (set_image (o_ppm (y_o y)) img)) (y_arm y) (y_log y)) v.
Proof. intros o y v img [A B C D E F G] L. constructor; auto. Qed.

Lemma set_ppm_set : forall o p q, set_ppm (set_ppm o p) q = set_ppm o q.
Proof. reflexivity. Qed.

(** The frame of the next send event. *)
Definition next_frame (o : iocr) (image : list Z) (v : view) : list Z :=
  wire (o_da o) (o_sa o) (o_vid o) (o_prio o) (o_fid o) (o_sdu o)
    (firstn (Z.to_nat (o_inlen o)) image)
    (counter (o_scf o * o_rr o) (S (S (v_sent v)))) (status_byte v).

(** The events of a send event, in order. *)
Definition arm_events (delay : Z) (first : bool) (add_ok : bool) : list pev :=
  if add_ok then PevArm delay :: (if first then [PevStarted] else []) else [PevError].

Lemma send_spec : forall o y v now e a, cfg_ok o -> pinv o y v -> v_run v = true ->
  exists p', send (y_o y) now e a =
    Ok (set_ppm o p', PevSend (next_frame o (p_image (o_ppm (y_o y))) v) ::
          if e then arm_events (u32 (u32 (p_next (o_ppm (y_o y)) + o_scf o * o_rr o * 1000 / 32) - now))
                      (negb (p_first (o_ppm (y_o y)))) a
          else []) /\
    p_image p' = p_image (o_ppm (y_o y)) /\
    p_next p' = (if e then u32 (p_next (o_ppm (y_o y)) + o_scf o * o_rr o * 1000 / 32) else p_next (o_ppm (y_o y))) /\
    (forall arm log, pinv o (mkPsys (set_ppm o p') arm log)
       (mkView true (S (v_sent v)) (v_start v) (v_primary v) (v_redundancy v) (v_provider v) (v_problem v))).
Proof.
  intros o y v now e a C [I1 I2 I3 I4 I5 I6 I7] R. specialize (I7 R). cbn zeta in I7.
  destruct I7 as ((d & t & rest & S1 & S2 & S3 & S4) & J1 & J2 & J3 & J4 & J5 & J6 & J7 & J8 & J9 & J10 & J11).
  pose proof (cfg_len _ C) as CL. pose proof (cfg_sdu _ C) as CS. pose proof (wire_hdr_len o C) as LH.
  rewrite R in *.
  unfold send. rewrite I4.
  assert (EI : o_inlen (y_o y) = o_inlen o) by (rewrite I1; reflexivity). rewrite EI.
  rewrite (finish_spec o (o_ppm (y_o y)) d t rest _ C I5 S1 S2 S3 I2 J5 J6 J7 J8 J9 J10
             ltac:(rewrite J2; apply counter_range) eq_refl). cbn [obind].
  set (cy := next_counter (o_scf o * o_rr o) (p_cycle (o_ppm (y_o y)))).
  assert (Ecy : cy = counter (o_scf o * o_rr o) (S (S (v_sent v)))) by (unfold cy; rewrite J2; reflexivity).
  clearbody cy.
  cbn [p_send p_slen]. rewrite J1.
  set (x := firstn (Z.to_nat (o_inlen o)) (p_image (o_ppm (y_o y)))).
  assert (Lx : length x = Z.to_nat (o_inlen o)) by (unfold x; rewrite firstn_length; lia).
  set (z := repeat 0 (Z.to_nat (o_sdu o) - Z.to_nat (o_inlen o))) in *.
  assert (Lz : length z = (Z.to_nat (o_sdu o) - Z.to_nat (o_inlen o))%nat) by apply repeat_length.
  assert (Lr : (length rest = 1500 - 24 - Z.to_nat (o_sdu o))%nat).
  { rewrite S1 in S4. rewrite !app_length in S4. lia. }
  rewrite slice_ok; [|lia|lia|rewrite !app_length; simpl length; lia]. cbn [obind].
  change (Z.to_nat 0) with 0%nat. rewrite skipn_O.
  assert (EF : firstn (Z.to_nat (o_sdu o + 24))
     (wire_hdr o ++ x ++ z ++ [cy / 256; cy mod 256; p_dstat (o_ppm (y_o y)); p_tstat (o_ppm (y_o y))] ++ rest) =
     next_frame o (p_image (o_ppm (y_o y))) v).
  { unfold next_frame, wire. fold x. rewrite Lx. fold z. rewrite <- Ecy, J3, J4.
    replace (wire_hdr o ++ x ++ z ++ [cy / 256; cy mod 256; status_byte v; 0] ++ rest)
      with ((wire_hdr o ++ x ++ z ++ [cy / 256; cy mod 256; status_byte v; 0]) ++ rest)
      by (rewrite <- !app_assoc; reflexivity).
    assert (LL : length (wire_hdr o ++ x ++ z ++ [cy / 256; cy mod 256; status_byte v; 0]) = Z.to_nat (o_sdu o + 24))
      by (rewrite !app_length; simpl length; lia).
    rewrite <- LL. rewrite firstn_app, Nat.sub_diag, firstn_all, firstn_O, app_nil_r.
    unfold wire_hdr. rewrite <- !app_assoc. reflexivity. }
  rewrite EF.
  destruct e; cbn [p_state p_next p_sa p_da p_first p_send p_slen p_alloc p_cycle p_tstat p_dstat p_blen
     p_bpos p_coff p_doff p_toff p_image p_trx p_scf p_rr p_int p_ci].
  - rewrite J11. eexists. split; [|split; [|split]].
    + rewrite I1 at 1. rewrite set_ppm_set. f_equal. f_equal. f_equal.
      unfold arm_events. destruct a; [|reflexivity]. destruct (p_first (o_ppm (y_o y))); reflexivity.
    + reflexivity.
    + reflexivity.
    + intros arm log. constructor; try reflexivity; try assumption; try discriminate.
      intros _. cbn [y_o o_ppm set_ppm p_send p_slen p_cycle p_tstat p_dstat p_bpos p_coff p_doff p_toff
        p_scf p_rr p_int v_sent].
      split; [|repeat split; assumption].
      exists x, [cy / 256; cy mod 256; p_dstat (o_ppm (y_o y)); p_tstat (o_ppm (y_o y))], rest.
      split; [reflexivity|]. split; [exact Lx|]. split; [reflexivity|].
      rewrite !app_length. simpl length. lia.
  - eexists. split; [|split; [|split]].
    + rewrite I1 at 1. rewrite set_ppm_set. reflexivity.
    + reflexivity.
    + reflexivity.
    + intros arm log. constructor; try reflexivity; try assumption; try discriminate.
      intros _. cbn [y_o o_ppm set_ppm p_send p_slen p_cycle p_tstat p_dstat p_bpos p_coff p_doff p_toff
        p_scf p_rr p_int v_sent].
      split; [|repeat split; assumption].
      exists x, [cy / 256; cy mod 256; p_dstat (o_ppm (y_o y)); p_tstat (o_ppm (y_o y))], rest.
      split; [reflexivity|]. split; [exact Lx|]. split; [reflexivity|].
      rewrite !app_length. simpl length. lia.
Qed.

(** Starting a stopped producer. *)
Lemma open_spec : forall o y v junk now a, cfg_ok o -> pinv o y v -> v_run v = false ->
  length junk = 1500%nat ->
  exists p', pstep y (QOpen true junk now a) =
    Ok (mkPsys (set_ppm o p') a
          ((if a then PevArm (o_scf o * o_rr o * 1000 / 32) else PevError) :: y_log y)) /\
    p_image p' = p_image (o_ppm (y_o y)) /\
    p_next p' = u32 (now + o_scf o * o_rr o * 1000 / 32) /\
    (forall arm log, pinv o (mkPsys (set_ppm o p') arm log) (mkView true 0 now true false false false)).
Proof.
  intros o y v junk now a C [I1 I2 I3 I4 I5 I6 I7] R Lj.
  pose proof (cfg_len _ C) as CL. pose proof (cfg_sdu _ C) as CS.
  pose proof (cfg_scf _ C) as CC. pose proof (cfg_rr _ C) as CR. pose proof (cfg_cyc _ C) as CY.
  cbn [pstep]. unfold create. rewrite I3, R.
  rewrite I1. cbn [o_sdu o_scf o_rr o_fid o_vid o_prio o_sa o_da o_ppm set_ppm].
  set (p := o_ppm (y_o y)) in *.
  assert (Q1 : 1 <= o_scf o * o_rr o) by nia.
  rewrite (u32_id (o_scf o * o_rr o)), (u32_id (o_scf o * o_rr o * 1000)) by lia.
  change (2 * 6 + 4 + 2 + 2) with 20. change (1 + 4 + 32) with 37.
  rewrite !u16_id by lia.
  match goal with |- context [init_buf ?pp _ _ _ _] =>
    destruct (init_buf_spec o pp junk C Lj) as (rest & E & Lr); [cbn [p_blen]; lia|reflexivity|reflexivity|] end.
  rewrite E. clear E. cbn [obind snd fst]. change (0 =? 0) with true. cbv iota.
  unfold pactivate. cbn [o_ppm set_ppm p_state p_next p_sa p_da p_first p_send p_slen p_alloc p_cycle p_tstat p_dstat p_blen
     p_bpos p_coff p_doff p_toff p_image p_trx p_scf p_rr p_int p_ci o_inlen].
  match goal with |- context [finish_buffer ?pp _] =>
    rewrite (finish_spec o pp (repeat 0 (Z.to_nat (o_inlen o))) [0;0;0;0] rest (next_counter (o_scf o * o_rr o) 0) C) end;
    [|reflexivity|reflexivity|apply repeat_length|reflexivity|exact I2|reflexivity|reflexivity
     |cbn [p_doff]; lia|cbn [p_toff]; lia|reflexivity|reflexivity|cbn [p_cycle]; lia|reflexivity].
  cbn [obind]. rewrite !set_ppm_set.
  eexists. split; [|split; [|split]].
  - f_equal. f_equal. destruct a; reflexivity.
  - reflexivity.
  - reflexivity.
  - intros arm log. constructor; try reflexivity; try assumption; try discriminate.
    intros _. cbn [y_o o_ppm set_ppm p_send p_slen p_cycle p_tstat p_dstat p_bpos p_coff p_doff p_toff
        p_scf p_rr p_int v_sent p_image].
    split; [|repeat split; try reflexivity; lia].
    eexists _, _, rest. split; [reflexivity|].
    pose proof (wire_hdr_len o C).
    split; [rewrite firstn_length; lia|]. split; [reflexivity|].
    rewrite !app_length, repeat_length, firstn_length. simpl length. lia.
Qed.

Lemma pinv_init : forall o, o_ppm o = ppm0 -> pinv o (mkPsys o false []) view0.
Proof.
  intros o E. constructor; cbn [y_o]; rewrite ?E; try reflexivity; try discriminate.
  destruct o; cbn in *; subst; reflexivity.
Qed.

(** Every step from a good state is defined and keeps the invariant. *)
Lemma pstep_ok : forall o y v q, cfg_ok o -> pinv o y v -> buffers_ok q ->
  exists y', pstep y q = Ok y' /\ pinv o y' (view_step (y_arm y) v q).
Proof.
  intros o y v q C I B. pose proof I as [I1 I2 I3 I4 I5 I6 I7].
  destruct q as [al junk now a|k w iops|k iocs|s|now e a|].
  - destruct (v_run v) eqn:R.
    + exists y. split.
      * cbn [pstep]. unfold create. rewrite I3. cbn [obind fst snd]. change (-1 =? 0) with false.
        cbv iota. destruct y; reflexivity.
      * cbn [view_step]. rewrite R. exact I.
    + destruct al.
      * destruct (open_spec o y v junk now a C I R B) as (p' & E & _ & _ & P).
        eexists. split; [exact E|]. cbn [view_step]. rewrite R. apply P.
      * cbn [pstep]. unfold create. rewrite I3. cbn [obind fst snd]. change (-1 =? 0) with false.
        cbv iota. eexists. split; [reflexivity|]. cbn [view_step]. rewrite R.
        constructor; cbn [y_o o_ppm set_ppm p_image p_state p_ci p_alloc y_arm]; rewrite ?R in *; auto; try discriminate.
        rewrite I1. reflexivity.
  - destruct (set_data_ok o (y_o y) k w iops C I1 I2) as (img & r & E & L).
    cbn [pstep]. rewrite E. cbn [obind fst]. eexists. split; [reflexivity|].
    apply pinv_image; auto.
  - destruct (set_iocs_ok o (y_o y) k iocs C I1 I2) as (img & r & E & L).
    cbn [pstep]. rewrite E. cbn [obind fst]. eexists. split; [reflexivity|].
    apply pinv_image; auto.
  - cbn [pstep]. eexists. split; [reflexivity|].
    assert (E : dset_step (y_o y) s = set_ppm o (set_dstat (o_ppm (y_o y)) (apply_dset (p_dstat (o_ppm (y_o y))) s))).
    { rewrite I1 at 1. unfold dset_step. cbn [o_input set_ppm]. rewrite (cfg_input _ C). destruct s; reflexivity. }
    assert (VR : forall arm, v_run (view_step arm v (QDset s)) = v_run v) by (intros; destruct s; reflexivity).
    assert (VS : forall arm, v_sent (view_step arm v (QDset s)) = v_sent v) by (intros; destruct s; reflexivity).
    rewrite E. constructor; cbn [y_o o_ppm set_ppm set_dstat p_image p_state p_ci p_alloc y_arm]; rewrite ?VR; auto.
    intros R. specialize (I7 R). cbn zeta in *. rewrite VS.
    cbn [p_send p_slen p_cycle p_tstat p_dstat p_bpos p_coff p_doff p_toff p_scf p_rr p_int].
    destruct I7 as (S1 & J1 & J2 & J3 & J4 & J5). rewrite J4, status_byte_dset.
    repeat (split; [assumption|]). split; [|exact J5]. destruct s; reflexivity.
  - cbn [pstep view_step]. destruct (y_arm y) eqn:A.
    + destruct (v_run v) eqn:R; [|specialize (I6 eq_refl); discriminate I6].
      destruct (send_spec o y v now e a C I R) as (p' & E & _ & _ & P).
      rewrite E. cbn [obind fst snd]. eexists. split; [reflexivity|]. apply P.
    + exists y. split; [destruct y; cbn in *; subst; reflexivity|exact I].
  - cbn [pstep view_step]. eexists. split; [reflexivity|].
    unfold pclose. cbn [fst snd].
    constructor; cbn [y_o o_ppm set_ppm p_image p_state p_ci p_alloc y_arm v_run]; auto; try discriminate.
    rewrite I1. reflexivity.
Qed.

Lemma phist_inv : forall o qs y v, cfg_ok o -> o_ppm o = ppm0 -> phist o qs y v -> pinv o y v.
Proof.
  intros o qs y v C E H. induction H as [|qs y v q y' H IH B S].
  - apply pinv_init; auto.
  - destruct (pstep_ok o y v q C IH B) as (y'' & S' & I). congruence.
Qed.

(** ** C14 *)

(** No history leads to undefined behaviour. *)
Theorem C14_no_undefined_behaviour : forall o qs, cfg_ok o -> o_ppm o = ppm0 -> Forall buffers_ok qs ->
  exists y, prun (mkPsys o false []) qs = Ok y.
Proof.
  intros o qs C E. pose proof (pinv_init o E) as I. revert I.
  generalize (mkPsys o false []) view0. induction qs as [|q qs IH]; intros y v I F; [eexists; reflexivity|].
  inversion F; subst. destruct (pstep_ok o y v q C I H1) as (y' & S & I').
  cbn [prun]. rewrite S. cbn [obind]. apply (IH y' _ I' H2).
Qed.
Print Assumptions C14_no_undefined_behaviour.

(** In every reachable state in which the send timer is armed, its expiry hands
    exactly one frame to the network, and this frame has the wire format: the
    addresses, tag and frame id of the connection, the first in_length bytes of
    the process image, padding to the C_SDU length, the counter of this send
    event, the status flags last set, and the transfer status 0. *)
Theorem C14_wire_format : forall o qs y v now e a, cfg_ok o -> o_ppm o = ppm0 -> phist o qs y v ->
  y_arm y = true ->
  exists y' evs, pstep y (QTimer now e a) = Ok y' /\
    y_log y' = evs ++
      PevSend (wire (o_da o) (o_sa o) (o_vid o) (o_prio o) (o_fid o) (o_sdu o)
                (firstn (Z.to_nat (o_inlen o)) (p_image (o_ppm (y_o y))))
                (counter (o_scf o * o_rr o) (2 + v_sent v)) (status_byte v)) :: y_log y /\
    forall f, ~ In (PevSend f) evs.
Proof.
  intros o qs y v now e a C E H A. pose proof (phist_inv o qs y v C E H) as I.
  destruct (v_run v) eqn:R; [|pose proof (pi_arm _ _ _ I R); congruence].
  destruct (send_spec o y v now e a C I R) as (p' & S & _).
  cbn [pstep]. rewrite A, S. cbn [obind fst snd]. eexists _, _. split; [reflexivity|].
  cbn [y_log rev]. rewrite <- app_assoc. cbn [app]. split; [reflexivity|].
  intros f F. rewrite <- in_rev in F. unfold arm_events in F.
  destruct e; [|exact F]. destruct a.
  - destruct F as [F|F]; [discriminate F|]. destruct (negb _); [destruct F as [F|F]; [discriminate F|exact F]|exact F].
  - destruct F as [F|F]; [discriminate F|exact F].
Qed.
Print Assumptions C14_wire_format.

(** Frames are sent at no other occasion. *)
Theorem C14_only_timer_sends : forall o qs y v q y', cfg_ok o -> o_ppm o = ppm0 -> phist o qs y v ->
  buffers_ok q -> pstep y q = Ok y' ->
  (exists now e a, q = QTimer now e a) \/
  exists evs, y_log y' = evs ++ y_log y /\ forall f, ~ In (PevSend f) evs.
Proof.
  intros o qs y v q y' C E H B S. pose proof (phist_inv o qs y v C E H) as I.
  destruct q as [al junk now a|k w iops|k iocs|s|now e a|]; [right|right|right|right|left; eauto|right].
  - pose proof I as [I1 I2 I3 I4 I5 I6 I7]. destruct (v_run v) eqn:R.
    + cbn [pstep] in S. unfold create in S. rewrite I3 in S. cbn [obind fst snd] in S.
      change (-1 =? 0) with false in S. cbv iota in S. injection S as <-. exists []. auto.
    + destruct al.
      * destruct (open_spec o y v junk now a C I R B) as (p' & E' & _).
        rewrite E' in S. injection S as <-. cbn [y_log].
        eexists [_]. split; [reflexivity|]. intros f [F|F]; [destruct a; discriminate F|exact F].
      * cbn [pstep] in S. unfold create in S. rewrite I3 in S. cbn [obind fst snd] in S.
        change (-1 =? 0) with false in S. cbv iota in S. injection S as <-. exists []. auto.
  - cbn [pstep] in S. destruct (set_data _ _ _ _); [|discriminate|discriminate].
    cbn [obind] in S. injection S as <-. exists []. auto.
  - cbn [pstep] in S. destruct (set_iocs _ _ _); [|discriminate|discriminate].
    cbn [obind] in S. injection S as <-. exists []. auto.
  - cbn [pstep] in S. injection S as <-. exists []. auto.
  - cbn [pstep] in S. injection S as <-. exists [PevFree; PevDisarm]. split; [reflexivity|].
    intros f [F|[F|F]]; try discriminate F. exact F.
Qed.
Print Assumptions C14_only_timer_sends.

Theorem C14_frame_length : forall o image v, cfg_ok o -> length image = 1500%nat ->
  Z.of_nat (length (next_frame o image v)) = o_sdu o + 24.
Proof.
  intros o image v C L. unfold next_frame, wire.
  pose proof (cfg_len _ C). pose proof (cfg_sdu _ C).
  repeat rewrite app_length. rewrite (cfg_sa _ C), (cfg_da _ C), repeat_length, firstn_length.
  simpl length. lia.
Qed.
Print Assumptions C14_frame_length.

(** ** C15 *)

Lemma pstep_image : forall o y v q y', cfg_ok o -> pinv o y v -> buffers_ok q -> pstep y q = Ok y' ->
  (forall k w iops, q <> QSetData k w iops) -> (forall k iocs, q <> QSetIocs k iocs) ->
  p_image (o_ppm (y_o y')) = p_image (o_ppm (y_o y)).
Proof.
  intros o y v q y' C I B S N1 N2. pose proof I as [I1 I2 I3 I4 I5 I6 I7].
  destruct q as [al junk now a|k w iops|k iocs|s|now e a|].
  - destruct (v_run v) eqn:R.
    + cbn [pstep] in S. unfold create in S. rewrite I3 in S. cbn [obind fst snd] in S.
      change (-1 =? 0) with false in S. cbv iota in S. injection S as <-. reflexivity.
    + destruct al.
      * destruct (open_spec o y v junk now a C I R B) as (p' & E' & P & _).
        rewrite E' in S. injection S as <-. exact P.
      * cbn [pstep] in S. unfold create in S. rewrite I3 in S. cbn [obind fst snd] in S.
        change (-1 =? 0) with false in S. cbv iota in S. injection S as <-. reflexivity.
  - exfalso. eapply N1. reflexivity.
  - exfalso. eapply N2. reflexivity.
  - cbn [pstep] in S. injection S as <-. cbn [y_o].
    unfold dset_step. destruct s; cbn [o_ppm set_ppm set_dstat p_image]; try reflexivity.
    destruct (o_input (y_o y)); reflexivity.
  - cbn [pstep] in S. destruct (y_arm y) eqn:A; [|injection S as <-; reflexivity].
    destruct (v_run v) eqn:R; [|specialize (I6 eq_refl); discriminate I6].
    destruct (send_spec o y v now e a C I R) as (p' & E & P & _).
    rewrite E in S. cbn [obind fst snd] in S. injection S as <-. exact P.
  - cbn [pstep] in S. injection S as <-. reflexivity.
Qed.

Lemma find_desc_unique : forall o k d, o_input o = true -> NoDup (map fst (o_desc o)) ->
  In (k, d) (o_desc o) -> find_desc o k = Some d.
Proof.
  intros o k d I N H. unfold find_desc. rewrite I.
  induction (o_desc o) as [|[k' d'] l IH]; [destruct H|].
  cbn [find fst]. inversion N as [|x l' N1 N2]; subst. destruct H as [H|H].
  - injection H as -> ->. rewrite (proj2 (key_eqb_true k k) eq_refl). reflexivity.
  - destruct (key_eqb k' k) eqn:Q.
    + apply key_eqb_true in Q. subst k'. exfalso. apply N1. cbn [fst]. apply (in_map fst) in H. exact H.
    + apply IH; auto.
Qed.

Lemma find_desc_none : forall o k, o_input o = true -> find_desc o k = None ->
  forall d, ~ In (k, d) (o_desc o).
Proof.
  intros o k I F d H. unfold find_desc in F. rewrite I in F.
  destruct (find (fun e => key_eqb (fst e) k) (o_desc o)) eqn:G; [discriminate|].
  pose proof (find_none _ _ G _ H) as X. cbn [fst] in X.
  rewrite (proj2 (key_eqb_true k k) eq_refl) in X. discriminate X.
Qed.

Lemma slice_zeros : forall off len n, 0 <= off -> 0 <= len -> off + len <= Z.of_nat n ->
  slice (repeat 0 n) off len = Ok (repeat 0 (Z.to_nat len)).
Proof.
  intros off len n A B D. rewrite slice_ok by (rewrite ?repeat_length; lia). f_equal.
  replace n with (Z.to_nat off + (Z.to_nat len + (n - Z.to_nat off - Z.to_nat len)))%nat by lia.
  rewrite !repeat_app. rewrite skipn_app, repeat_length, Nat.sub_diag, skipn_all2 by (rewrite repeat_length; lia).
  cbn [app skipn]. rewrite firstn_app, repeat_length, Nat.sub_diag, firstn_O, app_nil_r.
  apply firstn_all2. rewrite repeat_length. lia.
Qed.

(** After any history, every region of every sub-slot holds the value last
    successfully written to it (zeros before the first write), whatever was
    written to the other sub-slots. *)
Theorem C15_regions_hold_last_written : forall o qs y v k d r, cfg_ok o -> o_ppm o = ppm0 ->
  disjoint_layout o -> phist o qs y v -> In (k, d) (o_desc o) ->
  slice (p_image (o_ppm (y_o y))) (roff d r) (rlen d r) = Ok (last_written k d r qs).
Proof.
  intros o qs y v k d r C E (DL & ND) H K. unfold last_written.
  assert (RG : forall k0 d0 r0, In (k0, d0) (o_desc o) -> in_image o (roff d0 r0) (rlen d0 r0))
    by (intros k0 d0 r0 H0; destruct (cfg_desc _ C _ _ H0) as (X & Y & Z0); destruct r0; assumption).
  pose proof (RG k d r K) as (R1 & R2 & R3). pose proof (cfg_sdu _ C) as CS.
  induction H as [|qs y v q y' H IH B S].
  - cbn [y_o fold_left]. rewrite E. cbn [ppm0 p_image].
    apply slice_zeros; [lia|lia|]. unfold frame_buffer_size. lia.
  - pose proof (phist_inv o qs y v C E H) as I.
    rewrite fold_left_app. cbn [fold_left].
    set (x := fold_left (last_step k d r) qs (repeat 0 (Z.to_nat (rlen d r)))) in *. clearbody x.
    pose proof I as [I1 I2 _ _ _ _ _].
    assert (Other : (forall k w iops, q <> QSetData k w iops) -> (forall k iocs, q <> QSetIocs k iocs) ->
       slice (p_image (o_ppm (y_o y'))) (roff d r) (rlen d r) = Ok x).
    { intros N1 N2. rewrite (pstep_image o y v q y' C I B S N1 N2). exact IH. }
    destruct q as [al junk now a|k0 w iops|k0 iocs|s|now e a|];
      try (cbn [last_step]; apply Other; intros; discriminate).
    + (* data and IOPS *)
      clear Other. cbn [pstep] in S. unfold set_data in S.
      assert (FD : forall kk, find_desc (y_o y) kk = find_desc o kk) by (intros kk; rewrite I1; reflexivity).
      rewrite FD in S. cbn [last_step].
      destruct (find_desc o k0) as [d0|] eqn:F.
      * pose proof (find_desc_in o k0 d0 (cfg_input _ C) F) as K0.
        destruct (key_eqb k0 k) eqn:Q.
        -- apply key_eqb_true in Q. subst k0.
           rewrite (find_desc_unique o k d (cfg_input _ C) ND K) in F. injection F as <-.
           cbn [andb].
           destruct ((wlen w =? d_len d) && (Z.of_nat (length iops) =? s_len d)) eqn:LN.
           ++ apply andb_true_iff in LN. rewrite !Z.eqb_eq in LN. destruct LN as (LW & LI).
              set (img := p_image (o_ppm (y_o y))) in *.
              destruct (match w with WBytes bs => poke img (d_off d) bs | WNull _ => Ok img end) as [img1| |] eqn:P1;
                [|discriminate S|discriminate S]. cbn [obind] in S.
              destruct (poke img1 (s_off d) iops) as [img2| |] eqn:P2; [|discriminate S|discriminate S].
              cbn [obind fst] in S. injection S as <-. cbn [y_o o_ppm set_ppm set_image p_image].
              pose proof (RG k d RData K) as (D1 & D2 & D3). pose proof (RG k d RIops K) as (E1 & E2 & E3).
              destruct r; cbn [roff rlen] in *.
              ** (* data region *)
                 rewrite (slice_poke_other _ _ _ _ (d_off d) (d_len d) P2) by
                   (lia || (destruct (DL k d k d RData RIops K K ltac:(congruence)) as [G|G]; cbn [roff rlen] in G; lia)).
                 destruct w as [bs|n]; [|injection P1 as <-; exact IH].
                 cbn [wlen] in LW. rewrite <- LW. apply (slice_poke_same _ _ _ _ P1).
              ** rewrite <- LI. destruct w; apply (slice_poke_same _ _ _ _ P2).
              ** rewrite (slice_poke_other _ _ _ _ (k_off d) (k_len d) P2) by
                   (lia || (destruct (DL k d k d RIocs RIops K K ltac:(congruence)) as [G|G]; cbn [roff rlen] in G; lia)).
                 assert (slice img1 (k_off d) (k_len d) = Ok x).
                 { destruct w as [bs|n]; [|injection P1 as <-; exact IH]. cbn [wlen] in LW.
                   rewrite (slice_poke_other _ _ _ _ (k_off d) (k_len d) P1); [exact IH|lia|].
                   destruct (DL k d k d RIocs RData K K ltac:(congruence)) as [G|G]; cbn [roff rlen] in G; lia. }
                 destruct w; assumption.
           ++ injection S as <-. cbn [y_o fst]. exact IH.
        -- cbn [andb].
           assert (NK : k <> k0) by (intros ->; rewrite (proj2 (key_eqb_true k0 k0) eq_refl) in Q; discriminate Q).
           destruct ((wlen w =? d_len d0) && (Z.of_nat (length iops) =? s_len d0)) eqn:LN.
           ++ apply andb_true_iff in LN. rewrite !Z.eqb_eq in LN. destruct LN as (LW & LI).
              set (img := p_image (o_ppm (y_o y))) in *.
              destruct (match w with WBytes bs => poke img (d_off d0) bs | WNull _ => Ok img end) as [img1| |] eqn:P1;
                [|discriminate S|discriminate S]. cbn [obind] in S.
              destruct (poke img1 (s_off d0) iops) as [img2| |] eqn:P2; [|discriminate S|discriminate S].
              cbn [obind fst] in S. injection S as <-. cbn [y_o o_ppm set_ppm set_image p_image].
              rewrite (slice_poke_other _ _ _ _ _ _ P2) by
                (lia || (destruct (DL k d k0 d0 r RIops K K0 ltac:(congruence)) as [G|G]; cbn [roff rlen] in *; lia)).
              destruct w as [bs|n]; [|injection P1 as <-; exact IH]. cbn [wlen] in LW.
              rewrite (slice_poke_other _ _ _ _ _ _ P1); [exact IH|lia|].
              destruct (DL k d k0 d0 r RData K K0 ltac:(congruence)) as [G|G]; cbn [roff rlen] in *; lia.
           ++ injection S as <-. exact IH.
      * injection S as <-. cbn [y_o fst].
        destruct (key_eqb k0 k) eqn:Q; [|exact IH].
        apply key_eqb_true in Q. subst k0. exfalso.
        apply (find_desc_none o k (cfg_input _ C) F d K).
    + (* IOCS *)
      clear Other. cbn [pstep] in S. unfold set_iocs in S.
      assert (FD : forall kk, find_desc (y_o y) kk = find_desc o kk) by (intros kk; rewrite I1; reflexivity).
      rewrite FD in S. cbn [last_step].
      destruct (find_desc o k0) as [d0|] eqn:F.
      * pose proof (find_desc_in o k0 d0 (cfg_input _ C) F) as K0.
        destruct (key_eqb k0 k) eqn:Q.
        -- apply key_eqb_true in Q. subst k0.
           rewrite (find_desc_unique o k d (cfg_input _ C) ND K) in F. injection F as <-.
           cbn [andb].
           destruct (Z.eqb_spec (Z.of_nat (length iocs)) (k_len d)) as [LW|LW].
           ++ destruct (poke (p_image (o_ppm (y_o y))) (k_off d) iocs) as [img2| |] eqn:P2; [|discriminate S|discriminate S].
              cbn [obind fst] in S. injection S as <-. cbn [y_o o_ppm set_ppm set_image p_image].
              destruct r; cbn [roff rlen] in *.
              ** rewrite (slice_poke_other _ _ _ _ _ _ P2); [exact IH|lia|].
                 destruct (DL k d k d RData RIocs K K ltac:(congruence)) as [G|G]; cbn [roff rlen] in G; lia.
              ** rewrite (slice_poke_other _ _ _ _ _ _ P2); [exact IH|lia|].
                 destruct (DL k d k d RIops RIocs K K ltac:(congruence)) as [G|G]; cbn [roff rlen] in G; lia.
              ** rewrite <- LW. apply (slice_poke_same _ _ _ _ P2).
           ++ destruct (k_len d =? 0); injection S as <-; exact IH.
        -- cbn [andb].
           assert (NK : k <> k0) by (intros ->; rewrite (proj2 (key_eqb_true k0 k0) eq_refl) in Q; discriminate Q).
           destruct (Z.eqb_spec (Z.of_nat (length iocs)) (k_len d0)) as [LW|LW].
           ++ destruct (poke (p_image (o_ppm (y_o y))) (k_off d0) iocs) as [img2| |] eqn:P2; [|discriminate S|discriminate S].
              cbn [obind fst] in S. injection S as <-. cbn [y_o o_ppm set_ppm set_image p_image].
              rewrite (slice_poke_other _ _ _ _ _ _ P2); [exact IH|lia|].
              destruct (DL k d k0 d0 r RIocs K K0 ltac:(congruence)) as [G|G]; cbn [roff rlen] in *; lia.
           ++ destruct (k_len d0 =? 0); injection S as <-; exact IH.
      * injection S as <-. cbn [y_o fst].
        destruct (key_eqb k0 k) eqn:Q; [|exact IH].
        apply key_eqb_true in Q. subst k0. exfalso.
        apply (find_desc_none o k (cfg_input _ C) F d K).
Qed.
Print Assumptions C15_regions_hold_last_written.

(** Bytes outside the regions of the addressed sub-slot are not changed by a write. *)
Theorem C15_write_changes_only_own_bytes : forall o y v k w iops y' i, cfg_ok o -> pinv o y v ->
  pstep y (QSetData k w iops) = Ok y' ->
  nth i (p_image (o_ppm (y_o y'))) 0 = nth i (p_image (o_ppm (y_o y))) 0 \/
  exists d, In (k, d) (o_desc o) /\
    (d_off d <= Z.of_nat i < d_off d + d_len d \/ s_off d <= Z.of_nat i < s_off d + s_len d).
Proof.
  intros o y v k w iops y' i C I S. pose proof I as [I1 I2 _ _ _ _ _].
  cbn [pstep] in S. unfold set_data in S.
  assert (FD : find_desc (y_o y) k = find_desc o k) by (rewrite I1; reflexivity). rewrite FD in S.
  destruct (find_desc o k) as [d|] eqn:F; [|injection S as <-; left; reflexivity].
  pose proof (find_desc_in o k d (cfg_input _ C) F) as K.
  destruct ((wlen w =? d_len d) && (Z.of_nat (length iops) =? s_len d)) eqn:LN; [|injection S as <-; left; reflexivity].
  apply andb_true_iff in LN. rewrite !Z.eqb_eq in LN. destruct LN as (LW & LI).
  set (img := p_image (o_ppm (y_o y))) in *.
  destruct (match w with WBytes bs => poke img (d_off d) bs | WNull _ => Ok img end) as [img1| |] eqn:P1;
    [|discriminate S|discriminate S]. cbn [obind] in S.
  destruct (poke img1 (s_off d) iops) as [img2| |] eqn:P2; [|discriminate S|discriminate S].
  cbn [obind fst] in S. injection S as <-. cbn [y_o o_ppm set_ppm set_image p_image].
  rewrite (nth_poke _ _ _ _ i P2). pose proof (poke_inv _ _ _ _ P2) as (A1 & A2 & _).
  destruct ((Z.to_nat (s_off d) <=? i)%nat && (i <? Z.to_nat (s_off d) + length iops)%nat) eqn:Q.
  - right. exists d. split; [exact K|]. right. apply andb_true_iff in Q.
    rewrite Nat.leb_le, Nat.ltb_lt in Q. lia.
  - destruct w as [bs|n]; [|injection P1 as <-; left; reflexivity].
    rewrite (nth_poke _ _ _ _ i P1). pose proof (poke_inv _ _ _ _ P1) as (B1 & B2 & _). cbn [wlen] in LW.
    destruct ((Z.to_nat (d_off d) <=? i)%nat && (i <? Z.to_nat (d_off d) + length bs)%nat) eqn:Q2; [|left; reflexivity].
    right. exists d. split; [exact K|]. left. apply andb_true_iff in Q2.
    rewrite Nat.leb_le, Nat.ltb_lt in Q2. lia.
Qed.
Print Assumptions C15_write_changes_only_own_bytes.

(** The frame carries, at the agreed position, the last value written. *)
Theorem C15_frame_carries_last_written : forall o qs y v k d r now e a, cfg_ok o -> o_ppm o = ppm0 ->
  disjoint_layout o -> phist o qs y v -> In (k, d) (o_desc o) ->
  roff d r + rlen d r <= o_inlen o -> y_arm y = true ->
  exists y' evs frame, pstep y (QTimer now e a) = Ok y' /\ y_log y' = evs ++ PevSend frame :: y_log y /\
    slice frame (20 + roff d r) (rlen d r) = Ok (last_written k d r qs).
Proof.
  intros o qs y v k d r now e a C E D H K L A.
  destruct (C14_wire_format o qs y v now e a C E H A) as (y' & evs & S & G & _).
  eexists y', evs, _. split; [exact S|]. split; [exact G|].
  rewrite <- (C15_regions_hold_last_written o qs y v k d r C E D H K).
  pose proof (phist_inv o qs y v C E H) as I. pose proof (pi_img _ _ _ I) as LI.
  set (img := p_image (o_ppm (y_o y))) in *.
  assert (RG : in_image o (roff d r) (rlen d r))
    by (destruct (cfg_desc _ C _ _ K) as (X & Y & Z0); destruct r; assumption).
  destruct RG as (R1 & R2 & R3). pose proof (cfg_len _ C) as CL. pose proof (cfg_sdu _ C) as CS.
  assert (LF : Z.of_nat (length (next_frame o img v)) = o_sdu o + 24) by (apply C14_frame_length; auto).
  unfold next_frame in LF. change (2 + v_sent v)%nat with (Datatypes.S (Datatypes.S (v_sent v))).
  rewrite !slice_ok by lia. f_equal.
  unfold wire.
  set (cnt := counter _ _). clearbody cnt.
  set (hd := o_da o ++ o_sa o ++ [129; 0] ++ [(o_prio o mod 8) * 32 + (o_vid o mod 4096) / 256; o_vid o mod 256] ++
             [136; 146] ++ [o_fid o / 256; o_fid o mod 256]).
  set (tl := repeat 0 _ ++ [_; _; _; _]).
  replace (o_da o ++ o_sa o ++ [129; 0] ++ [(o_prio o mod 8) * 32 + (o_vid o mod 4096) / 256; o_vid o mod 256] ++
             [136; 146] ++ [o_fid o / 256; o_fid o mod 256] ++ firstn (Z.to_nat (o_inlen o)) img ++ tl)
    with (hd ++ firstn (Z.to_nat (o_inlen o)) img ++ tl) by (unfold hd; rewrite <- !app_assoc; reflexivity).
  assert (LH : length hd = 20%nat) by (apply (wire_hdr_len o C)).
  clearbody hd tl.
  rewrite skipn_app, skipn_all2 by lia. cbn [app].
  replace (Z.to_nat (20 + roff d r) - length hd)%nat with (Z.to_nat (roff d r)) by lia.
  rewrite skipn_app, firstn_app.
  rewrite skipn_length, firstn_length.
  replace (Z.to_nat (rlen d r) - (Nat.min (Z.to_nat (o_inlen o)) (length img) - Z.to_nat (roff d r)))%nat with 0%nat by lia.
  rewrite firstn_O, app_nil_r.
  rewrite skipn_firstn_comm, firstn_firstn. f_equal. lia.
Qed.
Print Assumptions C15_frame_carries_last_written.

(** ** C16 *)

(** Reading back returns the last written data and IOPS when the producer runs
    and the buffers are large enough, and fails otherwise. *)
Theorem C16_read_back : forall o qs y v k d dlen slen, cfg_ok o -> o_ppm o = ppm0 ->
  disjoint_layout o -> phist o qs y v -> In (k, d) (o_desc o) ->
  (v_run v = true -> d_len d <= dlen -> s_len d <= slen ->
     pget_data (y_o y) k dlen slen = Ok (Some (last_written k d RData qs, last_written k d RIops qs))) /\
  (v_run v = false \/ dlen < d_len d \/ slen < s_len d -> pget_data (y_o y) k dlen slen = Ok None).
Proof.
  intros o qs y v k d dlen slen C E D H K.
  pose proof (phist_inv o qs y v C E H) as I. pose proof I as [I1 I2 I3 _ _ _ _].
  pose proof (C15_regions_hold_last_written o qs y v k d RData C E D H K) as S1.
  pose proof (C15_regions_hold_last_written o qs y v k d RIops C E D H K) as S2.
  cbn [roff rlen] in S1, S2.
  assert (FD : find_desc (y_o y) k = Some d).
  { replace (find_desc (y_o y) k) with (find_desc o k) by (rewrite I1; reflexivity).
    apply find_desc_unique; [apply C|apply D|exact K]. }
  unfold pget_data. rewrite FD, I3. split.
  - intros R A B. rewrite R. destruct (Z.leb_spec (d_len d) dlen); [|lia].
    destruct (Z.leb_spec (s_len d) slen); [|lia]. cbn [andb].
    rewrite S1. cbn [obind]. rewrite S2. reflexivity.
  - intros A. destruct (v_run v); [|reflexivity].
    destruct A as [A|A]; [discriminate A|].
    destruct (Z.leb_spec (d_len d) dlen); cbn [andb]; [|reflexivity].
    destruct (Z.leb_spec (s_len d) slen); [lia|reflexivity].
Qed.
Print Assumptions C16_read_back.

Theorem C16_read_back_iocs : forall o qs y v k d klen, cfg_ok o -> o_ppm o = ppm0 ->
  disjoint_layout o -> phist o qs y v -> In (k, d) (o_desc o) ->
  v_run v = true -> k_len d <= klen ->
  pget_iocs (y_o y) k klen = Ok (Some (last_written k d RIocs qs)).
Proof.
  intros o qs y v k d klen C E D H K R A.
  pose proof (phist_inv o qs y v C E H) as I. pose proof I as [I1 I2 I3 _ _ _ _].
  pose proof (C15_regions_hold_last_written o qs y v k d RIocs C E D H K) as S1. cbn [roff rlen] in S1.
  unfold pget_iocs.
  replace (find_desc (y_o y) k) with (find_desc o k) by (rewrite I1; reflexivity).
  rewrite (find_desc_unique o k d (cfg_input _ C) (proj2 D) K), I3, R.
  destruct (Z.leb_spec (k_len d) klen); [|lia]. rewrite S1. reflexivity.
Qed.
Print Assumptions C16_read_back_iocs.

(** Writes return 0 exactly when the lengths are those agreed for a sub-slot of
    this CR; otherwise nothing changes. *)
Theorem C16_wrong_lengths_refused : forall o qs y v k w iops, cfg_ok o -> o_ppm o = ppm0 ->
  disjoint_layout o -> phist o qs y v ->
  exists o' r, set_data (y_o y) k w iops = Ok (o', r) /\
    (r = 0 <-> exists d, In (k, d) (o_desc o) /\ wlen w = d_len d /\ Z.of_nat (length iops) = s_len d) /\
    (r <> 0 -> o' = y_o y).
Proof.
  intros o qs y v k w iops C E D H.
  pose proof (phist_inv o qs y v C E H) as I. pose proof I as [I1 I2 I3 _ _ _ _].
  destruct (set_data_ok o (y_o y) k w iops C I1 I2) as (img & r & S & _).
  eexists _, r. split; [exact S|].
  unfold set_data in S.
  assert (FD : find_desc (y_o y) k = find_desc o k) by (rewrite I1; reflexivity). rewrite FD in S.
  assert (ID : forall p, Ok (y_o y, -1) = Ok (p, r) -> r = -1 /\ p = y_o y)
    by (intros p Q; injection Q as <- <-; auto).
  destruct (find_desc o k) as [d|] eqn:F.
  - pose proof (find_desc_in o k d (cfg_input _ C) F) as K.
    assert (UQ : forall d', In (k, d') (o_desc o) -> d' = d).
    { intros d' K'. pose proof (find_desc_unique o k d' (cfg_input _ C) (proj2 D) K'). congruence. }
    destruct ((wlen w =? d_len d) && (Z.of_nat (length iops) =? s_len d)) eqn:LN.
    + apply andb_true_iff in LN. rewrite !Z.eqb_eq in LN.
      assert (R0 : r = 0).
      { destruct w as [bs|n].
        - destruct (poke (p_image (o_ppm (y_o y))) (d_off d) bs); [|discriminate S|discriminate S]. cbn [obind] in S.
          destruct (poke a (s_off d) iops); [|discriminate S|discriminate S]. cbn [obind] in S. congruence.
        - cbn [obind] in S. destruct (poke _ (s_off d) iops); [|discriminate S|discriminate S]. cbn [obind] in S. congruence. }
      split; [|lia]. split; [intros _; exists d; tauto|intros _; exact R0].
    + destruct (ID _ S) as (-> & EQ). rewrite EQ. split; [|auto]. split; [lia|].
      intros (d' & K' & L1 & L2). apply UQ in K'. subst d'.
      rewrite L1, L2, !Z.eqb_refl in LN. discriminate LN.
  - destruct (ID _ S) as (-> & EQ). rewrite EQ. split; [|auto]. split; [lia|].
    intros (d' & K' & _). exfalso. apply (find_desc_none o k (cfg_input _ C) F d' K').
Qed.
Print Assumptions C16_wrong_lengths_refused.

(** ** C17 *)

(** For an interval that is a power of two the n-th counter is n intervals,
    modulo 65536: all counters are multiples of the interval and the advance is
    exactly one interval. *)
Theorem C17_power_of_two : forall m n, 0 <= m <= 16 ->
  counter (2 ^ m) n = (Z.of_nat n * 2 ^ m) mod 65536.
Proof.
  intros m n Hm. induction n as [|n IH]; [reflexivity|].
  cbn [counter]. rewrite IH. unfold next_counter.
  assert (P : 0 < 2 ^ m) by (apply Z.pow_pos_nonneg; lia).
  assert (E : 65536 = 2 ^ m * 2 ^ (16 - m))
    by (rewrite <- Z.pow_add_r by lia; replace (m + (16 - m)) with 16 by lia; reflexivity).
  assert (Q : 0 < 2 ^ (16 - m)) by (apply Z.pow_pos_nonneg; lia).
  rewrite E. rewrite (Z.mul_comm (Z.of_nat n)).
  rewrite Z.mul_mod_distr_l by lia.
  rewrite (Z.mul_comm (2 ^ m) (Z.of_nat n mod _)), Z.div_mul by lia.
  rewrite Z.mul_add_distr_r, Z.mul_1_l.
  rewrite (Z.mul_comm (Z.of_nat n mod _)), <- Z.mul_mod_distr_l by lia.
  rewrite Zplus_mod_idemp_l. f_equal. lia.
Qed.
Print Assumptions C17_power_of_two.

(** For every admitted interval each counter passes the window check of a
    consumer that accepted the previous one, and the advance is at most one
    interval. *)
Theorem C17_accepted_by_consumer : forall i n, 1 <= i <= 61440 ->
  check_cycle (counter i n) (counter i (S n)) = true /\
  1 <= (counter i (S n) - counter i n) mod 65536 <= i.
Proof.
  intros i n Hi. pose proof (counter_range i n) as R. cbn [counter].
  set (c := counter i n) in *. clearbody c.
  assert (D : (next_counter i c - c) mod 65536 = i - c mod i).
  { unfold next_counter. rewrite Zminus_mod_idemp_l.
    replace ((c / i + 1) * i - c) with (i - c mod i)
      by (pose proof (Z.div_mod c i ltac:(lia)); lia).
    pose proof (Z.mod_pos_bound c i ltac:(lia)). apply Z.mod_small. lia. }
  pose proof (Z.mod_pos_bound c i ltac:(lia)) as M.
  split; [|lia].
  unfold check_cycle. rewrite (u16_id c) by lia. unfold u16. rewrite D.
  rewrite andb_true_iff, !Z.leb_le. lia.
Qed.
Print Assumptions C17_accepted_by_consumer.

(** With intervals that are not powers of two the advance is irregular where the
    counter wraps: e.g. send clock factor 32 and reduction ratio 3. *)
Theorem C17_not_power_of_two_irregular :
  exists n, counter 96 n = 65472 /\ counter 96 (S n) = 32 /\ counter 96 (S (S n)) = 96.
Proof.
  assert (L : forall n, Z.of_nat n <= 682 -> counter 96 n = 96 * Z.of_nat n).
  { induction n as [|n IH]; [reflexivity|]. intros H. cbn [counter]. rewrite IH by lia.
    unfold next_counter. rewrite (Z.mul_comm 96 (Z.of_nat n)), Z.div_mul by lia.
    rewrite Z.mod_small by lia. lia. }
  exists (Z.to_nat 682).
  assert (A : counter 96 (Z.to_nat 682) = 65472) by (rewrite L; rewrite Z2Nat.id by lia; [reflexivity|lia]).
  revert A. generalize (Z.to_nat 682). intros n A. cbn [counter]. rewrite A. repeat split; reflexivity.
Qed.
Print Assumptions C17_not_power_of_two_irregular.

(** The counter derived from a time stamp is the largest multiple of the interval
    not above the time in units of 31.25 us. *)
Theorem C17_counter_from_time : forall t scf rr c, 0 <= t < 4294967296 -> 1 <= scf -> 1 <= rr ->
  scf * rr <= 61440 -> cyclecounter t scf rr = Ok c ->
  exists m, c = m mod 65536 /\ (scf * rr | m) /\ m <= 32 * t / 1000 < m + scf * rr.
Proof.
  intros t scf rr c T A B I H. unfold cyclecounter in H.
  assert (P : 1 <= scf * rr) by nia. rewrite (u32_id (scf * rr)) in H by lia.
  destruct (Z.eqb_spec (scf * rr) 0); [lia|].
  set (i := scf * rr) in *. set (raw := 32 * t / 1000) in *.
  assert (R : 0 <= raw < 4294967296).
  { unfold raw. split; [apply Z.div_pos; lia|apply Z.div_lt_upper_bound; lia]. }
  assert (D : 0 <= raw / i <= raw) by (split; [apply Z.div_pos; lia|apply Z.div_le_upper_bound; nia]).
  pose proof (Z.mul_div_le raw i ltac:(lia)) as M. pose proof (Z.mod_pos_bound raw i ltac:(lia)) as N.
  pose proof (Z.div_mod raw i ltac:(lia)) as DM.
  rewrite (u32_id (raw / i)) in H by lia. rewrite u32_id in H by nia.
  injection H as <-. exists (raw / i * i). split; [reflexivity|]. split; [exists (raw / i); lia|lia].
Qed.
Print Assumptions C17_counter_from_time.

(** ** C18 *)

(** Any sequence of setter calls: each bit has the value last set, all other
    bits are untouched.  The problem indicator is stored inverted. *)
Definition bit_of (s : dset) : Z :=
  match s with DPrimary _ => 0 | DRedundancy _ => 1 | DProvider _ => 4 | DProblem _ => 5 end.
Definition bit_value (s : dset) : bool :=
  match s with DPrimary v => v | DRedundancy v => v | DProvider v => v | DProblem v => negb v end.

(** The last setter for bit [b] in [ss], the newest being last. *)
Definition last_set (b : Z) (ss : list dset) : option bool :=
  fold_left (fun acc s => if bit_of s =? b then Some (bit_value s) else acc) ss None.

Theorem C18_setters_independent : forall ss x b, 0 <= x < 256 -> 0 <= b ->
  Z.testbit (fold_left apply_dset ss x) b =
  match last_set b ss with Some v => v | None => Z.testbit x b end.
Proof.
  intros ss x b Hx Hb. unfold last_set.
  assert (G : forall acc x, 0 <= x < 256 ->
    Z.testbit (fold_left apply_dset ss x) b =
    match fold_left (fun a s => if bit_of s =? b then Some (bit_value s) else a) ss acc with
    | Some v => v
    | None => Z.testbit x b end \/ acc <> None /\ Z.testbit x b <> match acc with Some v => v | None => true end).
  { clear x Hx. induction ss as [|s ss IH]; intros acc x Hx; cbn [fold_left].
    - destruct acc as [v|]; [|left; reflexivity].
      destruct (Bool.bool_dec (Z.testbit x b) v); [left; auto|right; split; [discriminate|auto]].
    - assert (R : 0 <= apply_dset x s < 256) by (destruct s; apply put_bit_range).
      assert (T : Z.testbit (apply_dset x s) b = if b =? bit_of s then bit_value s else Z.testbit x b).
      { destruct s; cbn [apply_dset bit_of bit_value]; apply put_bit_spec; lia. }
      destruct (IH (if bit_of s =? b then Some (bit_value s) else acc) (apply_dset x s) R) as [I|(N & I)].
      + left. rewrite I. rewrite T, (Z.eqb_sym b).
        destruct (bit_of s =? b) eqn:Q; [|reflexivity].
        destruct (fold_left _ ss (Some (bit_value s))) eqn:FF; [reflexivity|].
        exfalso. clear -FF. revert FF. generalize (bit_value s).
        induction ss as [|s' ss IH]; intros v FF; cbn [fold_left] in FF; [discriminate|].
        destruct (bit_of s' =? b); eapply IH; eauto.
      + rewrite T, (Z.eqb_sym b) in I. destruct (bit_of s =? b) eqn:Q; [congruence|].
        right. auto. }
  destruct (G None x Hx) as [I|(N & _)]; [exact I|congruence].
Qed.
Print Assumptions C18_setters_independent.

(** In every reachable state of a running producer the status byte that the next
    frame carries is composed of the flags last set since the start; data valid
    is set throughout. *)
Theorem C18_status_follows_setters : forall o qs y v, cfg_ok o -> o_ppm o = ppm0 -> phist o qs y v ->
  v_run v = true ->
  let x := p_dstat (o_ppm (y_o y)) in
  Z.testbit x 0 = v_primary v /\ Z.testbit x 1 = v_redundancy v /\ Z.testbit x 2 = true /\
  Z.testbit x 3 = false /\ Z.testbit x 4 = v_provider v /\ Z.testbit x 5 = negb (v_problem v) /\
  (forall b, 6 <= b -> Z.testbit x b = false).
Proof.
  intros o qs y v C E H R. pose proof (phist_inv o qs y v C E H) as I.
  destruct (pi_run _ _ _ I R) as (_ & _ & _ & _ & S & _). cbn zeta. rewrite S.
  unfold status_byte. destruct (v_primary v), (v_redundancy v), (v_provider v), (v_problem v); cbn [b2z negb];
    repeat (split; [reflexivity|]); intros b Hb;
    (apply Z.bits_above_log2; [lia|apply (Z.lt_le_trans _ 6); [reflexivity|lia]]).
Qed.
Print Assumptions C18_status_follows_setters.

(** ** C19 *)

(** As long as the network driver accepts the frames, a running producer always
    has its timer armed or has reported an error. *)
Theorem C19_keeps_sending_partial : forall o qs y v, cfg_ok o -> o_ppm o = ppm0 -> phist o qs y v ->
  (forall now e a, In (QTimer now e a) qs -> e = true) ->
  v_run v = true -> y_arm y = true \/ In PevError (y_log y).
Proof.
  intros o qs y v C E H. induction H as [|qs y v q y' H IH B S]; intros F R; [discriminate R|].
  assert (F' : forall now e a, In (QTimer now e a) qs -> e = true)
    by (intros; eapply F; apply in_or_app; left; eassumption).
  specialize (IH F'). pose proof (phist_inv o qs y v C E H) as I.
  destruct q as [al junk now a|k w iops|k iocs|s|now e a|].
  - cbn [view_step] in R. pose proof I as [I1 I2 I3 I4 I5 I6 I7]. destruct (v_run v) eqn:Rv.
    + cbn [pstep] in S. unfold create in S. rewrite I3 in S. cbn [obind fst snd] in S.
      change (-1 =? 0) with false in S. cbv iota in S. injection S as <-. exact (IH eq_refl).
    + destruct al; [|congruence].
      destruct (open_spec o y v junk now a C I Rv B) as (p' & E' & _).
      rewrite E' in S. injection S as <-. cbn [y_arm y_log]. destruct a; [left; reflexivity|right; left; reflexivity].
  - cbn [pstep] in S. destruct (set_data _ _ _ _); [|discriminate|discriminate].
    cbn [obind] in S. injection S as <-. exact (IH R).
  - cbn [pstep] in S. destruct (set_iocs _ _ _); [|discriminate|discriminate].
    cbn [obind] in S. injection S as <-. exact (IH R).
  - cbn [pstep] in S. injection S as <-. apply IH. destruct s; exact R.
  - assert (e = true) by (eapply F; apply in_or_app; right; left; reflexivity). subst e.
    cbn [pstep view_step] in *. destruct (y_arm y) eqn:A; [|injection S as <-; rewrite A in *; exact (IH R)].
    cbn [v_run] in R. destruct (send_spec o y v now true a C I R) as (p' & E' & _).
    rewrite E' in S. cbn [obind fst snd] in S. injection S as <-. cbn [y_arm y_log].
    unfold arm_events. destruct a; [left|right].
    + destruct (negb _); reflexivity.
    + apply in_or_app. left. left. reflexivity.
  - discriminate R.
Qed.
Print Assumptions C19_keeps_sending_partial.

(** A refused frame stops the producer silently: it stays in state RUN, no timer
    is armed, and nobody is told. *)
Definition ex_iocr : iocr :=
  mkIocr true 40 32 2 33000 0 6 [1; 2; 3; 4; 5; 6] [7; 8; 9; 10; 11; 12] 4
    [((0, 1, 1), mkIodata 0 2 2 1 3 1)] ppm0.

Lemma ex_cfg : cfg_ok ex_iocr.
Proof.
  constructor; cbn; try lia; try reflexivity.
  intros k d [X|[]]. injection X as <- <-. unfold in_image; cbn. lia.
Qed.

Theorem C19_send_failure_refuted :
  exists o qs y v, cfg_ok o /\ o_ppm o = ppm0 /\ phist o qs y v /\ v_run v = true /\
    y_arm y = false /\ ~ In PevError (y_log y) /\ ~ In QClose qs /\
    (* and no later timer event can revive it *)
    forall now e a, pstep y (QTimer now e a) = Ok y.
Proof.
  assert (Lj : exists junk : list Z, length junk = Z.to_nat frame_buffer_size)
    by (exists (repeat 0 (Z.to_nat frame_buffer_size)); apply repeat_length).
  destruct Lj as (junk & Lj).
  pose proof ex_cfg as C. assert (E0 : o_ppm ex_iocr = ppm0) by reflexivity.
  destruct (open_spec ex_iocr (mkPsys ex_iocr false []) view0 junk 1000 true C (pinv_init ex_iocr E0) eq_refl Lj)
    as (p1 & S1 & _ & _ & I1).
  set (y1 := mkPsys _ true _) in S1.
  assert (I : pinv ex_iocr y1 (mkView true 0 1000 true false false false)) by apply I1.
  destruct (send_spec ex_iocr y1 _ 3000 false true C I eq_refl) as (p2 & S2 & _ & _ & _).
  set (f := next_frame _ _ _) in S2. clearbody f.
  assert (S2' : pstep y1 (QTimer 3000 false true) = Ok (mkPsys (set_ppm ex_iocr p2) false (PevSend f :: y_log y1))).
  { cbn [pstep]. change (y_arm y1) with true. cbv iota. rewrite S2. reflexivity. }
  exists ex_iocr, [QOpen true junk 1000 true; QTimer 3000 false true],
    (mkPsys (set_ppm ex_iocr p2) false (PevSend f :: y_log y1)),
    (view_step (y_arm y1) (view_step false view0 (QOpen true junk 1000 true)) (QTimer 3000 false true)).
  split; [exact C|]. split; [reflexivity|]. split; [|split; [|split; [|split; [|split]]]].
  - apply (ph_snoc _ [QOpen true junk 1000 true] y1 _ (QTimer 3000 false true)); [|exact Logic.I|exact S2'].
    apply (ph_snoc _ [] (mkPsys ex_iocr false []) view0); [constructor|exact Lj|exact S1].
  - reflexivity.
  - reflexivity.
  - cbn [y_log y1]. intros [X|[X|X]]; try discriminate X. exact X.
  - intros [X|[X|X]]; try discriminate X. exact X.
  - intros now e a. reflexivity.
Qed.
Print Assumptions C19_send_failure_refuted.

(** Send events are scheduled on a grid without drift: whenever a successful send
    event re-arms the timer, the instant it is armed for is a whole number of
    control intervals after the start of the producer, whatever delays the
    previous events suffered. *)
Lemma next_exec_grid : forall o qs y v, cfg_ok o -> o_ppm o = ppm0 -> phist o qs y v ->
  (forall now e a, In (QTimer now e a) qs -> e = true) -> v_run v = true ->
  p_next (o_ppm (y_o y)) = u32 (v_start v + (1 + Z.of_nat (v_sent v)) * (o_scf o * o_rr o * 1000 / 32)).
Proof.
  intros o qs y v C E H. set (ci := o_scf o * o_rr o * 1000 / 32).
  induction H as [|qs y v q y' H IH B S]; intros F R; [discriminate R|].
  assert (F' : forall now e a, In (QTimer now e a) qs -> e = true)
    by (intros; eapply F; apply in_or_app; left; eassumption).
  specialize (IH F'). pose proof (phist_inv o qs y v C E H) as I.
  destruct q as [al junk now a|k w iops|k iocs|s|now e a|].
  - cbn [view_step] in R |- *. pose proof I as [I1 I2 I3 I4 I5 I6 I7]. destruct (v_run v) eqn:Rv.
    + cbn [pstep] in S. unfold create in S. rewrite I3 in S. cbn [obind fst snd] in S.
      change (-1 =? 0) with false in S. cbv iota in S. injection S as <-. exact (IH eq_refl).
    + destruct al; [|congruence].
      destruct (open_spec o y v junk now a C I Rv B) as (p' & E' & _ & Q & _).
      rewrite E' in S. injection S as <-. cbn [y_o o_ppm set_ppm v_start v_sent]. rewrite Q. f_equal. fold ci. lia.
  - cbn [pstep] in S. destruct (set_data_ok o (y_o y) k w iops C (pi_cfg _ _ _ I) (pi_img _ _ _ I)) as (img & r & D & _).
    rewrite D in S. cbn [obind fst] in S. injection S as <-. exact (IH R).
  - cbn [pstep] in S. destruct (set_iocs_ok o (y_o y) k iocs C (pi_cfg _ _ _ I) (pi_img _ _ _ I)) as (img & r & D & _).
    rewrite D in S. cbn [obind fst] in S. injection S as <-. exact (IH R).
  - cbn [pstep] in S. injection S as <-. cbn [y_o].
    replace (p_next (o_ppm (dset_step (y_o y) s))) with (p_next (o_ppm (y_o y)))
      by (unfold dset_step; destruct s; try reflexivity; destruct (o_input (y_o y)); reflexivity).
    destruct s; exact (IH R).
  - assert (e = true) by (eapply F; apply in_or_app; right; left; reflexivity). subst e.
    cbn [pstep view_step] in *. destruct (y_arm y) eqn:A; [|injection S as <-; exact (IH R)].
    cbn [v_run] in R. destruct (send_spec o y v now true a C I R) as (p' & E' & _ & Q & _).
    rewrite E' in S. cbn [obind fst snd] in S. injection S as <-. cbn [y_o o_ppm set_ppm v_start v_sent].
    rewrite Q, (IH R). fold ci. unfold u32. rewrite Zplus_mod_idemp_l. f_equal. lia.
  - discriminate R.
Qed.

Theorem C19_no_drift : forall o qs y v now y', cfg_ok o -> o_ppm o = ppm0 -> phist o qs y v ->
  (forall now e a, In (QTimer now e a) qs -> e = true) -> y_arm y = true ->
  pstep y (QTimer now true true) = Ok y' ->
  exists delay, In (PevArm delay) (y_log y') /\ y_arm y' = true /\ 0 <= delay < 4294967296 /\
    (now + delay) mod 4294967296 =
    (v_start v + (2 + Z.of_nat (v_sent v)) * (o_scf o * o_rr o * 1000 / 32)) mod 4294967296.
Proof.
  intros o qs y v now y' C E H F A S. pose proof (phist_inv o qs y v C E H) as I.
  destruct (v_run v) eqn:R; [|pose proof (pi_arm _ _ _ I R); congruence].
  destruct (send_spec o y v now true true C I R) as (p' & E' & _).
  cbn [pstep] in S. rewrite A, E' in S. cbn [obind fst snd] in S. injection S as <-. cbn [y_log y_arm].
  rewrite (next_exec_grid o qs y v C E H F R).
  set (ci := o_scf o * o_rr o * 1000 / 32). eexists. split; [|split; [|split; [apply u32_range|]]].
  - apply in_or_app. left. apply in_or_app. left. apply in_or_app. right. left. reflexivity.
  - destruct (negb _); reflexivity.
  - unfold u32. rewrite Zplus_mod_idemp_r.
    replace (now + _) with (((v_start v + (1 + Z.of_nat (v_sent v)) * ci) mod 4294967296 + ci) mod 4294967296) by lia.
    rewrite Zmod_mod, Zplus_mod_idemp_l. f_equal. lia.
Qed.
Print Assumptions C19_no_drift.

(** ** The hypotheses are met *)
Example ex_ppm_cfg : cfg_ok ex_iocr /\ disjoint_layout ex_iocr.
Proof.
  split.
  - constructor; cbn; try lia; try reflexivity.
    intros k d [X|[]]. injection X as <- <-. unfold in_image; cbn. lia.
  - split.
    + intros k d k' d' r r' [X|[]] [X'|[]]. injection X as <- <-. injection X' as <- <-.
      intros N. destruct r, r'; cbn; try lia; congruence.
    + repeat constructor. cbn. tauto.
Qed.

Example ex_ppm_history :
  exists y, prun (mkPsys ex_iocr false [])
    [QOpen true (repeat 0 1500) 1000 true; QSetData (0, 1, 1) (WBytes [170; 187]) [128];
     QSetIocs (0, 1, 1) [128]; QDset (DProvider true); QTimer 3000 true true] = Ok y /\ y_arm y = true /\
    exists f, y_log y = [PevStarted; PevArm 2000; PevSend f; PevArm 2000] /\
      slice f 20 4 = Ok [170; 187; 128; 128] /\ slice f 60 4 = Ok [0; 128; 53; 0].
Proof. eexists. split; [vm_compute; reflexivity|]. split; [reflexivity|]. eexists. repeat split. Qed.
