(** Properties C08-C13: the cyclic consumer (pf_cpm.c, pf_cpm_driver_sw.c). *)
From Coq Require Import List ZArith Arith Bool Lia Permutation.
From Verif Require Import Base CpmModel.
Import ListNotations.
Local Open Scope Z_scope.
Set Bullet Behavior "Strict Subproofs".

(** * Specification vocabulary *)

(** [now] is between 1 and 61440 steps ahead of [prev], modulo 65536. *)
Definition in_window (prev now : Z) : Prop :=
  exists k, 1 <= k <= 61440 /\ now = (prev + k) mod 65536.

Definition src_mac (frame : list Z) : list Z := firstn 6 (skipn 6 frame).

(** Length of the frame after removal of VLAN tags. *)
Definition net_length (f : buf) : Z := Z.of_nat (length (b_data f)) - b_fpos f + 14.

(** A frame as pf_eth_recv delivers it: the frame id lies inside it. *)
Definition plausible (f : buf) : Prop :=
  14 <= b_fpos f /\ b_fpos f + 2 <= Z.of_nat (length (b_data f)) < 65000 /\
  Forall (fun x => 0 <= x < 256) (b_data f).

(** The frame satisfies all conditions for being accepted; it ends with cycle
    counter, data status and transfer status. *)
Definition acceptable (c : cpm) (f : buf) : Prop :=
  exists pre hi lo ds,
    b_data f = pre ++ [hi; lo; ds; 0] /\
    src_mac (b_data f) = c_sa c /\
    net_length f = c_blen c /\
    in_window (c_cycle c) (hi * 256 + lo) /\
    Z.testbit ds 2 = true.

(** * Lemmas *)

Lemma land_pow2 : forall a n, 0 <= n -> Z.land a (2 ^ n) = if Z.testbit a n then 2 ^ n else 0.
Proof.
  intros a n Hn. apply Z.bits_inj'. intros m Hm.
  rewrite Z.land_spec, Z.pow2_bits_eqb by lia.
  destruct (Z.eqb_spec n m) as [->|N].
  - destruct (Z.testbit a m) eqn:E; simpl.
    + rewrite Z.pow2_bits_true by lia. reflexivity.
    + rewrite Z.bits_0. reflexivity.
  - rewrite andb_false_r. destruct (Z.testbit a n).
    + rewrite Z.pow2_bits_false; auto.
    + rewrite Z.bits_0. reflexivity.
Qed.

Lemma land4 : forall ds, negb (Z.land ds 4 =? 0) = Z.testbit ds 2.
Proof.
  intros ds. change 4 with (2 ^ 2). rewrite land_pow2 by lia.
  destruct (Z.testbit ds 2); reflexivity.
Qed.

Lemma check_cycle_spec : forall prev now, 0 <= now < 65536 ->
  (check_cycle prev now = true <-> in_window prev now).
Proof.
  intros prev now H. unfold check_cycle, in_window, u16.
  rewrite andb_true_iff, !Z.leb_le.
  replace ((now - prev mod 65536) mod 65536) with ((now - prev) mod 65536)
    by (rewrite Zminus_mod_idemp_r; reflexivity).
  split.
  - intros (A & B). exists ((now - prev) mod 65536). split; [lia|].
    rewrite Zplus_mod_idemp_r. replace (prev + (now - prev)) with now by lia.
    rewrite Z.mod_small; lia.
  - intros (k & A & ->). rewrite Zminus_mod_idemp_l.
    replace (prev + k - prev) with k by lia. rewrite Z.mod_small; lia.
Qed.

Lemma byte_at_app : forall pre l i, (i < length l)%nat ->
  byte_at (pre ++ l) (Z.of_nat (length pre) + Z.of_nat i) = Ok (nth i l 0).
Proof.
  intros pre l i H. unfold byte_at. rewrite app_length.
  destruct (Z.leb_spec 0 (Z.of_nat (length pre) + Z.of_nat i)); [|lia].
  destruct (Z.ltb_spec (Z.of_nat (length pre) + Z.of_nat i) (Z.of_nat (length pre + length l))); [|lia].
  simpl. f_equal. rewrite app_nth2 by lia. f_equal. lia.
Qed.

Lemma slice_ok : forall l off len, 0 <= off -> 0 <= len -> off + len <= Z.of_nat (length l) ->
  slice l off len = Ok (firstn (Z.to_nat len) (skipn (Z.to_nat off) l)).
Proof.
  intros l off len A B C. unfold slice.
  destruct (Z.leb_spec 0 off); [|lia]. destruct (Z.leb_spec 0 len); [|lia].
  destruct (Z.leb_spec (off + len) (Z.of_nat (length l))); [|lia]. reflexivity.
Qed.

Lemma slice_inv : forall l off len r, slice l off len = Ok r ->
  0 <= off /\ 0 <= len /\ off + len <= Z.of_nat (length l) /\
  r = firstn (Z.to_nat len) (skipn (Z.to_nat off) l).
Proof.
  intros l off len r H. unfold slice in H.
  destruct (Z.leb_spec 0 off); [|discriminate]. destruct (Z.leb_spec 0 len); [|discriminate].
  destruct (Z.leb_spec (off + len) (Z.of_nat (length l))); [|discriminate].
  simpl in H. inversion H. auto.
Qed.

Lemma blist_eqb_eq : forall a b, blist_eqb a b = true <-> a = b.
Proof. intros. unfold blist_eqb. destruct (list_eq_dec Z.eq_dec a b); split; congruence. Qed.

Lemma tail4 : forall l : list Z, (4 <= length l)%nat ->
  exists pre hi lo ds ts, l = pre ++ [hi; lo; ds; ts].
Proof.
  intros l H. exists (firstn (length l - 4) l).
  remember (skipn (length l - 4) l) as t.
  assert (length t = 4)%nat by (subst t; rewrite skipn_length; lia).
  destruct t as [|a [|b [|c [|d [|]]]]]; simpl in H0; try lia.
  exists a, b, c, d. rewrite Heqt. symmetry. apply firstn_skipn.
Qed.




Lemma app_inj_len : forall (A : Type) (a b a' b' : list A), length b = length b' ->
  a ++ b = a' ++ b' -> a = a' /\ b = b'.
Proof.
  intros A a b a' b' L E.
  assert (La : length a = length a')
    by (pose proof (f_equal (@length A) E) as F; rewrite !app_length in F; lia).
  clear L. revert a' La E. induction a as [|x a IH]; intros [|y a'] La E; simpl in *; try lia; auto.
  inversion E; subst. destruct (IH a') as (-> & ->); auto.
Qed.

Definition accepts (c : cpm) (f : buf) (hi lo ds ts : Z) : bool :=
  (ts =? 0) && blist_eqb (c_sa c) (src_mac (b_data f)) && (net_length f =? c_blen c) &&
  check_cycle (c_cycle c) (hi * 256 + lo) && Z.testbit ds 2.

(** The first part of the frame handler, on plausible frames. *)
Lemma data_ind_1_eval : forall c f pre hi lo ds ts,
  c_state c <> CWStart -> plausible f -> b_data f = pre ++ [hi; lo; ds; ts] ->
  data_ind_1 c f =
  if accepts c f hi lo ds ts
  then Ok (RxPut (fst (put_buf c f)) (match c_state c with CFrun => [CevStart] | _ => [] end)
             (c_cpm c) (hi * 256 + lo) ds)
  else Ok (RxDone c [CevFree (b_id f)]).
Proof.
  intros c f pre hi lo ds ts Hs (P1 & (P2 & P2') & P3) E.
  assert (L : Z.of_nat (length (b_data f)) = Z.of_nat (length pre) + 4)
    by (rewrite E, app_length; simpl; lia).
  assert (B : 0 <= hi < 256 /\ 0 <= lo < 256).
  { rewrite E in P3. rewrite Forall_app in P3. destruct P3 as (_ & P3).
    inversion P3; subst. inversion H2; subst. auto. }
  unfold data_ind_1.
  assert (EP : u16 (Z.of_nat (length (b_data f)) - 4) = Z.of_nat (length pre)).
  { rewrite u16_id; lia. }
  rewrite EP. cbv zeta.
  assert (B0 : byte_at (b_data f) (Z.of_nat (length pre)) = Ok hi).
  { rewrite E. rewrite <- (Z.add_0_r (Z.of_nat (length pre))).
    apply (byte_at_app pre [hi; lo; ds; ts] 0). simpl; lia. }
  assert (B1 : byte_at (b_data f) (Z.of_nat (length pre) + 1) = Ok lo).
  { rewrite E. apply (byte_at_app pre [hi; lo; ds; ts] 1). simpl; lia. }
  assert (B2 : byte_at (b_data f) (Z.of_nat (length pre) + 2) = Ok ds).
  { rewrite E. apply (byte_at_app pre [hi; lo; ds; ts] 2). simpl; lia. }
  assert (B3 : byte_at (b_data f) (Z.of_nat (length pre) + 3) = Ok ts).
  { rewrite E. apply (byte_at_app pre [hi; lo; ds; ts] 3). simpl; lia. }
  assert (SM : check_src_addr c f = Ok (blist_eqb (c_sa c) (src_mac (b_data f)))).
  { unfold check_src_addr. rewrite slice_ok by lia. reflexivity. }
  rewrite B0, B1, B2, B3, SM. cbn [obind].
  assert (EL : u16 (u16 (Z.of_nat (length (b_data f)) - b_fpos f) + (2 * 6 + 2)) = net_length f).
  { unfold net_length. rewrite (u16_id (_ - _)) by lia. rewrite u16_id by lia. lia. }
  rewrite EL. rewrite (u16_id (hi * 256 + lo)) by lia. rewrite land4.
  unfold accepts.
  destruct (c_state c) eqn:ES; [congruence| |];
    destruct (ts =? 0), (blist_eqb (c_sa c) (src_mac (b_data f))), (net_length f =? c_blen c),
      (check_cycle (c_cycle c) (hi * 256 + lo)), (Z.testbit ds 2), (Z.land ds 1 =? 0); reflexivity.
Qed.

Lemma accepts_spec : forall c f pre hi lo ds ts,
  plausible f -> b_data f = pre ++ [hi; lo; ds; ts] ->
  (accepts c f hi lo ds ts = true <-> acceptable c f).
Proof.
  intros c f pre hi lo ds ts (P1 & P2 & P3) E.
  assert (B : 0 <= hi < 256 /\ 0 <= lo < 256).
  { rewrite E in P3. rewrite Forall_app in P3. destruct P3 as (_ & P3).
    inversion P3; subst. inversion H2; subst. auto. }
  unfold accepts. rewrite !andb_true_iff, !Z.eqb_eq, blist_eqb_eq, check_cycle_spec by lia.
  split.
  - intros ((((-> & A2) & A3) & A4) & A5). exists pre, hi, lo, ds. auto.
  - intros (pre' & hi' & lo' & ds' & E' & A2 & A3 & A4 & A5).
    assert (EE : pre ++ [hi; lo; ds; ts] = pre' ++ [hi'; lo'; ds'; 0]) by congruence.
    assert (pre = pre' /\ [hi; lo; ds; ts] = [hi'; lo'; ds'; 0]).
    { apply app_inj_len; auto. }
    destruct H as (_ & H). inversion H; subst. auto.
Qed.

(** * C08: cycle counter window *)
Theorem C08_cycle_window : forall prev now, 0 <= now < 65536 ->
  (check_cycle prev now = true <-> in_window prev now).
Proof. exact check_cycle_spec. Qed.
Print Assumptions C08_cycle_window.

(** Duplicates and frames up to 4095 steps late are rejected, for any counters. *)
Theorem C08_duplicates_and_late_rejected : forall prev k,
  0 <= prev < 65536 -> 0 <= k <= 4095 -> check_cycle prev ((prev - k) mod 65536) = false.
Proof.
  intros prev k Hp Hk. apply not_true_iff_false.
  rewrite check_cycle_spec by (apply Z.mod_pos_bound; lia).
  intros (j & Hj & E).
  assert (D : (prev - k - (prev + j)) mod 65536 = 0).
  { rewrite Zminus_mod, E, Z.sub_diag. reflexivity. }
  apply Z.mod_divide in D; [|lia]. destruct D as (q & D). lia.
Qed.
Print Assumptions C08_duplicates_and_late_rejected.

(** The first frame after activation is compared with 65535. *)
Theorem C08_first_frame : forall now, 0 <= now < 65536 ->
  (check_cycle (-1) now = true <-> now < 61440).
Proof.
  intros now H. rewrite check_cycle_spec by auto. split.
  - intros (k & Hk & ->). replace (-1 + k) with (k - 1) by lia. rewrite Z.mod_small; lia.
  - intros L. exists (now + 1). split; [lia|].
    replace (-1 + (now + 1)) with now by lia. rewrite Z.mod_small; lia.
Qed.
Print Assumptions C08_first_frame.

(** * C09: invalid frames *)
Theorem C09_invalid_frame_no_effect : forall c f,
  plausible f -> ~ acceptable c f ->
  data_ind c f = Ok (c, [CevFree (b_id f)]).
Proof.
  intros c f Hp Hn.
  destruct (c_state c) eqn:ES.
  - unfold data_ind, data_ind_1. rewrite ES. reflexivity.
  - destruct (tail4 (b_data f)) as (pre & hi & lo & ds & ts & E); [destruct Hp; lia|].
    unfold data_ind. rewrite (data_ind_1_eval c f pre hi lo ds ts); auto; [|congruence].
    destruct (accepts c f hi lo ds ts) eqn:A; [|reflexivity].
    apply (accepts_spec c f pre hi lo ds ts Hp E) in A. contradiction.
  - destruct (tail4 (b_data f)) as (pre & hi & lo & ds & ts & E); [destruct Hp; lia|].
    unfold data_ind. rewrite (data_ind_1_eval c f pre hi lo ds ts); auto; [|congruence].
    destruct (accepts c f hi lo ds ts) eqn:A; [|reflexivity].
    apply (accepts_spec c f pre hi lo ds ts Hp E) in A. contradiction.
Qed.
Print Assumptions C09_invalid_frame_no_effect.

(** The cases spelled out: each single defect suffices. *)
Corollary C09_each_defect : forall c f pre hi lo ds ts,
  plausible f -> b_data f = pre ++ [hi; lo; ds; ts] ->
  src_mac (b_data f) <> c_sa c \/ net_length f <> c_blen c \/ ts <> 0 \/
  ~ in_window (c_cycle c) (hi * 256 + lo) \/ Z.testbit ds 2 = false ->
  data_ind c f = Ok (c, [CevFree (b_id f)]).
Proof.
  intros c f pre hi lo ds ts Hp E D. apply C09_invalid_frame_no_effect; auto.
  intros (pre' & hi' & lo' & ds' & E' & A2 & A3 & A4 & A5).
  assert (H : [hi; lo; ds; ts] = [hi'; lo'; ds'; 0])
    by (apply (app_inj_len _ pre _ pre'); [reflexivity|congruence]).
  inversion H; subst. destruct D as [D|[D|[D|[D|D]]]]; try congruence; auto.
Qed.
Print Assumptions C09_each_defect.

(** Conversely an acceptable frame is taken: its bytes become the newest data,
    its counter and data status are stored, the watchdog restarts. *)
Theorem C09_valid_frame_accepted : forall c f,
  plausible f -> acceptable c f -> c_state c <> CWStart ->
  exists pre hi lo ds ev,
    b_data f = pre ++ [hi; lo; ds; 0] /\
    data_ind c f = Ok (mkCpm CRun (c_hold c) 0 (hi * 256 + lo) ds (c_sa c) (c_blen c)
                         (b_fpos f + 2) (c_app c) (Some f) true (c_ci c), ev) /\
    In CevNewData ev /\ (In CevStart ev <-> c_state c = CFrun).
Proof.
  intros c f Hp Ha Hs.
  destruct (tail4 (b_data f)) as (pre & hi & lo & ds & ts & E); [destruct Hp; lia|].
  pose proof (proj2 (accepts_spec c f pre hi lo ds ts Hp E) Ha) as A.
  assert (ts = 0).
  { unfold accepts in A. rewrite !andb_true_iff, Z.eqb_eq in A. tauto. }
  subst ts. exists pre, hi, lo, ds.
  unfold data_ind. rewrite (data_ind_1_eval c f pre hi lo ds 0); auto. rewrite A.
  cbn [obind put_buf fst data_ind_2 c_hold c_sa c_blen c_app c_cpm c_new c_ci c_status].
  rewrite (u16_id (b_fpos f + 2)) by (destruct Hp; lia).
  eexists. split; [auto|]. split; [reflexivity|]. split.
  - apply in_or_app. right. left. reflexivity.
  - destruct (c_state c); [congruence| |]; simpl.
    + tauto.
    + split; [|discriminate]. intros [H|H]; [discriminate|].
      apply in_app_or in H. destruct H as [H|H].
      * destruct (Z.lxor (c_status c) ds =? 0); simpl in H; [tauto|]. destruct H; [discriminate|tauto].
      * destruct (c_cpm c); simpl in H; [|tauto]. destruct H; [discriminate|tauto].
Qed.
Print Assumptions C09_valid_frame_accepted.

(** A consumer just started for C_SDU length [sdu] and controller address [sa]
    takes as its first frame any well-formed frame of that length from that
    address whose counter is below 61440, and no frame whose counter is above. *)
Theorem C08_started_consumer : forall c hold sdu sa f pre hi lo ds,
  c_state c = CWStart -> 0 <= sdu <= 1440 -> plausible f ->
  b_data f = pre ++ [hi; lo; ds; 0] -> src_mac (b_data f) = sa ->
  net_length f = 16 + sdu + 4 -> Z.testbit ds 2 = true ->
  let c1 := fst (fst (activate c hold sdu sa true)) in
  (hi * 256 + lo < 61440 -> exists c2 ev, data_ind c1 f = Ok (c2, ev) /\ c_state c2 = CRun /\
     c_cycle c2 = hi * 256 + lo /\ c_cpm c2 = Some f /\ In CevStart ev) /\
  (61440 <= hi * 256 + lo -> data_ind c1 f = Ok (c1, [CevFree (b_id f)])).
Proof.
  intros c hold sdu sa f pre hi lo ds Hs Hsdu Hp E Hsa Hl Hd c1.
  assert (E1 : c_state c1 = CFrun /\ c_cycle c1 = -1 /\ c_sa c1 = sa /\ c_blen c1 = 16 + sdu + 4).
  { unfold c1, activate. rewrite Hs. cbn [fst set_state c_state c_cycle c_sa c_blen].
    repeat split; auto. rewrite u16_id; lia. }
  destruct E1 as (S1 & S2 & S3 & S4). clearbody c1.
  assert (B : 0 <= hi < 256 /\ 0 <= lo < 256).
  { destruct Hp as (_ & _ & F). rewrite E in F. apply Forall_app in F. destruct F as (_ & F).
    inversion F as [|a l F1 F2]; subst. inversion F2; subst. auto. }
  assert (A : hi * 256 + lo < 61440 <-> in_window (c_cycle c1) (hi * 256 + lo)).
  { rewrite S2. rewrite <- check_cycle_spec by lia. symmetry. apply C08_first_frame. lia. }
  split; intros L.
  - assert (Ac : acceptable c1 f).
    { exists pre, hi, lo, ds. rewrite S3, S4. repeat split; auto. apply A; lia. }
    destruct (C09_valid_frame_accepted c1 f Hp Ac ltac:(congruence)) as (pre' & hi' & lo' & ds' & ev & E' & D & _ & N).
    rewrite E in E'. apply app_inj_len in E'; [|reflexivity]. destruct E' as (_ & E'). injection E' as <- <- <-.
    eexists _, ev. split; [exact D|]. repeat split. apply N, S1.
  - apply C09_invalid_frame_no_effect; [exact Hp|].
    intros (pre' & hi' & lo' & ds' & E' & _ & _ & W & _).
    rewrite E in E'. apply app_inj_len in E'; [|reflexivity]. destruct E' as (_ & E'). injection E' as <- <- <-.
    apply A in W. lia.
Qed.
Print Assumptions C08_started_consumer.

(** * Shape of the frame handler, without assumptions *)
Lemma data_ind_1_shape : forall c f r, data_ind_1 c f = Ok r ->
  r = RxDone c [CevFree (b_id f)] \/
  c_state c <> CWStart /\
  exists ev cy st, r = RxPut (fst (put_buf c f)) ev (c_cpm c) cy st /\
    freed_ids ev = [] /\ has_newdata ev = false.
Proof.
  intros c f r H. unfold data_ind_1 in H.
  assert (G : forall (x : outcome Z) (k : Z -> outcome rx1),
    (do v <- x; k v) = Ok r -> exists v, k v = Ok r).
  { intros [v| |] k K; simpl in K; try discriminate. eauto. }
  assert (G' : forall (x : outcome bool) (k : bool -> outcome rx1),
    (do v <- x; k v) = Ok r -> exists v, k v = Ok r).
  { intros [v| |] k K; simpl in K; try discriminate. eauto. }
  destruct (c_state c) eqn:ES.
  - left. inversion H. reflexivity.
  - cbv zeta in H. apply G in H as (hi & H). apply G in H as (lo & H).
    apply G in H as (ds & H). apply G in H as (ts & H). cbv zeta in H. apply G' in H as (sa & H).
    destruct (Z.land ds 4 =? 0); simpl in H; [left; inversion H; reflexivity|].
    destruct (ts =? 0), sa, (_ =? c_blen c), (check_cycle _ _), (Z.land ds 1 =? 0); simpl in H;
      inversion H; auto; right; (split; [congruence|]); do 3 eexists; repeat split.
  - cbv zeta in H. apply G in H as (hi & H). apply G in H as (lo & H).
    apply G in H as (ds & H). apply G in H as (ts & H). cbv zeta in H. apply G' in H as (sa & H).
    destruct (Z.land ds 4 =? 0); simpl in H; [left; inversion H; reflexivity|].
    destruct (ts =? 0), sa, (_ =? c_blen c), (check_cycle _ _), (Z.land ds 1 =? 0); simpl in H;
      inversion H; auto; right; (split; [congruence|]); do 3 eexists; repeat split.
Qed.

Lemma existsb_app' : forall (A : Type) (p : A -> bool) a b,
  existsb p (a ++ b) = existsb p a || existsb p b.
Proof. intros. apply existsb_app. Qed.

Lemma data_ind_shape : forall c f c' ev, data_ind c f = Ok (c', ev) ->
  (has_newdata ev = false /\ c' = c) \/
  (has_newdata ev = true /\ c_state c <> CWStart /\
   exists cy st, c' = mkCpm CRun (c_hold c) 0 cy st (c_sa c) (c_blen c)
                        (u16 (b_fpos f + 2)) (c_app c) (Some f) true (c_ci c)).
Proof.
  intros c f c' ev H. unfold data_ind in H.
  destruct (data_ind_1 c f) as [r| |] eqn:E; try discriminate.
  destruct (data_ind_1_shape c f r E) as [->|(Hs & ev1 & cy & st & -> & _ & N)].
  - simpl in H. inversion H; subst. left. auto.
  - simpl in H. inversion H; subst. right. split; [|split; auto; eauto].
    unfold has_newdata in *. rewrite existsb_app, N. reflexivity.
Qed.

(** * Started consumer and its histories *)
Definition started (hold sdu_len : Z) (sa : list Z) : cpm :=
  fst (fst (activate cpm0 hold sdu_len sa true)).

(** [P] holds of every observation and the ones before it. *)
Definition every (P : cobs -> list cobs -> Prop) (h : list cobs) : Prop :=
  forall newer o older, h = newer ++ o :: older -> P o older.

Lemma every_nil : forall P, every P [].
Proof. intros P [|? newer] o older H; discriminate. Qed.

Lemma every_cons : forall (P : cobs -> list cobs -> Prop) o h, P o h -> every P h -> every P (o :: h).
Proof.
  intros P o h H1 H2 [|x newer] o' older E; simpl in E; inversion E; subst; auto.
  apply (H2 newer). reflexivity.
Qed.

Lemma crun_inv : forall (I : cpm -> list cobs -> Prop),
  (forall c h o c' b, I c h -> cstep c o = Ok (c', b) -> I c' (b :: h)) ->
  forall ops c h c' h', I c h -> crun c h ops = Ok (c', h') -> I c' h'.
Proof.
  intros I Hs ops. induction ops as [|o ops IH]; simpl; intros c h c' h' HI H.
  - inversion H; subst; auto.
  - destruct (cstep c o) as [[c1 b]| |] eqn:E; try discriminate. simpl in H.
    eapply IH; [|exact H]. eapply Hs; eauto.
Qed.

(** As [crun_inv], with a condition on the operations. *)
Lemma crun_inv_ok : forall (okop : cop -> Prop) (I : cpm -> list cobs -> Prop),
  (forall c h o c' b, okop o -> I c h -> cstep c o = Ok (c', b) -> I c' (b :: h)) ->
  forall ops c h c' h', Forall okop ops -> I c h -> crun c h ops = Ok (c', h') -> I c' h'.
Proof.
  intros okop I Hs ops. induction ops as [|o ops IH]; simpl; intros c h c' h' F HI H.
  - inversion H; subst; auto.
  - inversion F; subst. destruct (cstep c o) as [[c1 b]| |] eqn:E; try discriminate. simpl in H.
    eapply IH; [auto| |exact H]. eapply Hs; eauto.
Qed.

(** ** What the operations do to the fields *)
Lemma get_data_shape : forall c d dl sl c' r, get_data_and_iops c d dl sl = Ok (c', r) ->
  (c' = c /\ r = rd_fail) \/
  (c_state c <> CWStart /\ c' = fst (get_buf c) /\ copy_out (buf_ptr c') d (c_new c) = Ok r).
Proof.
  intros c d dl sl c' r H. unfold get_data_and_iops in H.
  assert (G : forall x : Prop, c_state c <> CWStart ->
    (if (dl <? d_len d) || (sl <? s_len d) then Ok (c, rd_fail)
     else let '(c1, new) := get_buf c in
          do r0 <- copy_out (buf_ptr c1) d new; Ok (c1, r0)) = Ok (c', r) ->
    (c' = c /\ r = rd_fail) \/
    (c_state c <> CWStart /\ c' = fst (get_buf c) /\ copy_out (buf_ptr c') d (c_new c) = Ok r)).
  { intros _ Hs K. destruct ((dl <? d_len d) || (sl <? s_len d)); [inversion K; auto|].
    right. split; auto.
    assert (N : snd (get_buf c) = c_new c) by (unfold get_buf; destruct (c_new c); reflexivity).
    destruct (get_buf c) as (c1 & new). simpl in *. subst new.
    destruct (copy_out (buf_ptr c1) d (c_new c)) as [r0| |] eqn:E; simpl in K; inversion K; subst; auto. }
  destruct (c_state c) eqn:ES; [inversion H; auto| |]; apply (G True); auto; congruence.
Qed.

Lemma get_iocs_shape : forall c d kl c' r, get_iocs c d kl = Ok (c', r) ->
  (c' = c /\ r = (-1, [])) \/
  (c_state c <> CWStart /\ c' = fst (get_buf c) /\
   (fst r = 0 <-> c_app c' <> None)).
Proof.
  intros c d kl c' r H. unfold get_iocs in H.
  destruct (c_state c) eqn:ES; [inversion H; auto| |];
    (destruct ((kl <? k_len d) || (k_len d =? 0)); [inversion H; auto|]);
    right; (split; [congruence|]); destruct (get_buf c) as (c1 & new); simpl;
    unfold buf_ptr in H; destruct (c_app c1) as [b|] eqn:EA; simpl in H.
  - destruct (slice _ _ _); simpl in H; inversion H; subst. rewrite EA. simpl.
    split; auto. split; [congruence|auto].
  - inversion H; subst. split; auto. simpl. rewrite EA. split; [discriminate|congruence].
  - destruct (slice _ _ _); simpl in H; inversion H; subst. rewrite EA. simpl.
    split; auto. split; [congruence|auto].
  - inversion H; subst. split; auto. simpl. rewrite EA. split; [discriminate|congruence].
Qed.

Lemma get_buf_same : forall c, let c1 := fst (get_buf c) in
  c_state c1 = c_state c /\ c_hold c1 = c_hold c /\ c_dht c1 = c_dht c /\ c_ci c1 = c_ci c /\
  c_bpos c1 = c_bpos c /\ c_blen c1 = c_blen c /\ c_new c1 = false.
Proof. intros c. unfold get_buf. destruct (c_new c) eqn:E; simpl; repeat split; auto. Qed.

(** * C10: the watchdog *)

(** Number of control intervals since the last accepted frame, [None] when no
    frame has been accepted. *)
Fixpoint silent (h : list cobs) : option Z :=
  match h with
  | [] => None
  | BFrame _ true :: _ => Some 0
  | BExpire _ :: h' => option_map (fun n => n + 1) (silent h')
  | _ :: h' => silent h'
  end.

Definition inv10 (hold : Z) (c : cpm) (h : list cobs) : Prop :=
  c_hold c = hold /\
  (~ In (BExpire true) h /\ c_ci c = true /\
   match silent h with
   | None => c_state c = CFrun
   | Some k => c_state c = CRun /\ c_dht c = k /\ 0 <= k <= hold
   end
   \/ In (BExpire true) h /\ c_ci c = false /\ c_state c = CWStart) /\
  every (fun o older => forall s, o = BExpire s ->
           (s = true <-> silent older = Some hold /\ ~ In (BExpire true) older)) h.

Lemma inv10_step : forall hold, 0 <= hold < 65536 ->
  forall c h o c' b, inv10 hold c h -> cstep c o = Ok (c', b) -> inv10 hold c' (b :: h).
Proof.
  intros hold Hh c h o c' b (H0 & H1 & H2) E.
  destruct o as [f|ok|d dl sl|d kl]; simpl in E.
  - destruct (data_ind c f) as [[c1 ev]| |] eqn:D; try discriminate. simpl in E. inversion E; subst; clear E.
    destruct (data_ind_shape _ _ _ _ D) as [(N & ->)|(N & Hs & cy & st & ->)]; rewrite N.
    + split; [auto|]. split; [|apply every_cons; auto; intros; discriminate]. simpl.
      destruct H1 as [(A & B & C)|(A & B & C)]; [left|right; auto].
      split; [intros [X|X]; [discriminate|auto]|auto].
    + destruct H1 as [(A & B & C)|(A & B & C)]; [|congruence].
      split; [reflexivity|]. split; [|apply every_cons; auto; intros; discriminate]. simpl.
      left. split; [intros [X|X]; [discriminate|auto]|]. split; auto. split; auto. lia.
  - inversion E; subst b c'; clear E. unfold expired.
    destruct H1 as [(A & B & C)|(A & B & C)]; rewrite B.
    + destruct (silent h) as [k|] eqn:S.
      * destruct C as (C1 & C2 & C3). rewrite C1, C2, H0.
        destruct (Z.leb_spec hold k).
        -- cbn [c_ci fst snd has_stop existsb orb]. split; [simpl; auto|]. split.
           ++ right. simpl. auto.
           ++ apply every_cons; auto. intros s K. inversion K; subst s. split; auto.
              intros _. split; auto. rewrite S. f_equal. lia.
        -- cbn [c_ci]. cbn [fst snd].
           replace (has_stop ([] ++ [if ok then CevArm else CevError])) with false by (destruct ok; reflexivity).
           split; [simpl; auto|]. split.
           ++ left. split; [intros [X|X]; [discriminate|auto]|]. split; [simpl; auto|].
              simpl. rewrite S. simpl. split; auto. split; [apply u16_id; lia|lia].
           ++ apply every_cons; auto. intros s K. inversion K; subst s. split; [discriminate|].
              intros (K1 & _). rewrite S in K1. inversion K1. lia.
      * rewrite C. rewrite B. cbn [fst snd].
        replace (has_stop ([] ++ [if ok then CevArm else CevError])) with false by (destruct ok; reflexivity).
        split; [auto|]. split.
        -- left. split; [intros [X|X]; [discriminate|auto]|]. split; [auto|]. simpl. rewrite S. auto.
        -- apply every_cons; auto. intros s K. inversion K; subst s. split; [discriminate|].
           rewrite S. intros (K1 & _). discriminate.
    + simpl. split; [auto|]. split; [right; simpl; tauto|].
      apply every_cons; auto. intros s K. inversion K; subst s. split; [discriminate|]. tauto.
  - destruct (get_data_and_iops c d dl sl) as [[c1 r]| |] eqn:D; try discriminate.
    simpl in E. inversion E; subst; clear E.
    assert (Q : c_state c' = c_state c /\ c_hold c' = c_hold c /\ c_dht c' = c_dht c /\ c_ci c' = c_ci c).
    { destruct (get_data_shape _ _ _ _ _ _ D) as [(-> & _)|(_ & -> & _)]; auto.
      pose proof (get_buf_same c). simpl in H. tauto. }
    destruct Q as (Q1 & Q2 & Q3 & Q4). split; [congruence|].
    split; [|apply every_cons; auto; intros; discriminate]. simpl. rewrite Q1, Q3, Q4.
    destruct H1 as [(A & B & C)|(A & B & C)]; [left|right; auto].
    split; [intros [X|X]; [discriminate|auto]|auto].
  - destruct (get_iocs c d kl) as [[c1 r]| |] eqn:D; try discriminate.
    simpl in E. inversion E; subst; clear E.
    assert (Q : c_state c' = c_state c /\ c_hold c' = c_hold c /\ c_dht c' = c_dht c /\ c_ci c' = c_ci c).
    { destruct (get_iocs_shape _ _ _ _ _ D) as [(-> & _)|(_ & -> & _)]; auto.
      pose proof (get_buf_same c). simpl in H. tauto. }
    destruct Q as (Q1 & Q2 & Q3 & Q4). split; [congruence|].
    split; [|apply every_cons; auto; intros; discriminate]. simpl. rewrite Q1, Q3, Q4.
    destruct H1 as [(A & B & C)|(A & B & C)]; [left|right; auto].
    split; [intros [X|X]; [discriminate|auto]|auto].
Qed.

(** Communication loss is reported by the control interval that follows exactly
    [hold] silent intervals (the (hold+1)-th), once, and by no other one. *)
Theorem C10_watchdog : forall hold sdu sa ops c newer s older,
  0 <= hold < 65536 ->
  crun (started hold sdu sa) [] ops = Ok (c, newer ++ BExpire s :: older) ->
  (s = true <-> silent older = Some hold /\ ~ In (BExpire true) older).
Proof.
  intros hold sdu sa ops c newer s older Hh R.
  assert (I0 : inv10 hold (started hold sdu sa) []).
  { split; [reflexivity|]. split; [|apply every_nil]. left. simpl. auto. }
  destruct (crun_inv (inv10 hold) (inv10_step hold Hh) ops _ _ _ _ I0 R) as (_ & _ & V).
  exact (V _ _ _ eq_refl s eq_refl).
Qed.
Print Assumptions C10_watchdog.

(** Race (the frame handler is interrupted between its two parts by the last
    interval): communication loss is reported, the supervision timer is off, and
    the consumer nevertheless stays in the running state. *)
Definition ex_mac : list Z := [1; 2; 3; 4; 5; 6].
Definition ex_frame (id : nat) (tagged : bool) (counter : Z) (payload : list Z) : buf :=
  mkBuf id ([9; 9; 9; 9; 9; 9] ++ ex_mac ++
            (if tagged then [129; 0; 192; 0] else []) ++ [136; 146] ++ [128; 0] ++ payload ++
            [counter / 256; counter mod 256; 53; 0])
    (if tagged then 18 else 14).
Definition ex_pay (n : Z) : list Z := repeat n 40.
Definition ex_desc : iodata := mkIodata 2 3 5 1 6 1.

Theorem C10_race_refuted : exists ls z,
  zrun (csys0 (started 0 40 ex_mac)) ls = Ok z /\
  In CevStop (snd (expired (z_cpm (match zrun (csys0 (started 0 40 ex_mac)) (firstn 3 ls) with
                                   | Ok z1 => z1 | _ => csys0 cpm0 end)) true)) /\
  c_state (z_cpm z) = CRun /\ c_ci (z_cpm z) = false.
Proof.
  exists [KRx1 (ex_frame 0 false 10 (ex_pay 1)); KRx2; KRx1 (ex_frame 1 false 20 (ex_pay 2));
          KExpire true; KRx2].
  eexists. split; [vm_compute; reflexivity|]. vm_compute. auto.
Qed.
Print Assumptions C10_race_refuted.

(** * C11: reads return the newest accepted bytes *)

(** The newest accepted frame. *)
Fixpoint latest (h : list cobs) : option buf :=
  match h with
  | [] => None
  | BFrame f true :: _ => Some f
  | _ :: h' => latest h'
  end.

(** [len] bytes at offset [off] of the process data in a frame. *)
Definition part (f : buf) (off len : Z) : list Z :=
  firstn (Z.to_nat len) (skipn (Z.to_nat (b_fpos f + 2 + off)) (b_data f)).

(** The layout computed at connect time lies inside the process data. *)
Definition desc_in (sdu : Z) (d : iodata) : Prop :=
  0 <= d_off d /\ 0 <= d_len d /\ d_off d + d_len d <= sdu /\
  0 <= s_off d /\ 0 <= s_len d /\ s_off d + s_len d <= sdu.

Definition cop_ok (o : cop) : Prop := match o with OFrame f => plausible f | _ => True end.

Definition frame_ok (sdu : Z) (f : buf) : Prop := plausible f /\ net_length f = sdu + 20.

Definition inv11 (sdu : Z) (c : cpm) (h : list cobs) : Prop :=
  c_blen c = sdu + 20 /\
  (match latest h with Some f => frame_ok sdu f /\ c_bpos c = b_fpos f + 2 | None => True end) /\
  (if c_new c then c_cpm c = latest h /\ latest h <> None else c_app c = latest h).

Lemma data_ind_accept_len : forall c f c' ev, plausible f ->
  data_ind c f = Ok (c', ev) -> has_newdata ev = true -> net_length f = c_blen c.
Proof.
  intros c f c' ev Hp D N.
  destruct (data_ind_shape _ _ _ _ D) as [(N' & _)|(_ & Hs & _)]; [congruence|].
  destruct (tail4 (b_data f)) as (pre & hi & lo & ds & ts & E); [destruct Hp; lia|].
  unfold data_ind in D. rewrite (data_ind_1_eval c f pre hi lo ds ts) in D; auto.
  destruct (accepts c f hi lo ds ts) eqn:A.
  - unfold accepts in A. rewrite !andb_true_iff, !Z.eqb_eq in A. tauto.
  - simpl in D. inversion D; subst. discriminate.
Qed.

Lemma inv11_same : forall sdu c c' h b,
  inv11 sdu c h -> latest (b :: h) = latest h -> c_blen c' = c_blen c -> c_bpos c' = c_bpos c ->
  c' = fst (get_buf c) \/ (c_new c' = c_new c /\ c_cpm c' = c_cpm c /\ c_app c' = c_app c) ->
  inv11 sdu c' (b :: h).
Proof.
  intros sdu c c' h b (A & B & C) L E1 E2 [->|(E3 & E4 & E5)]; unfold inv11; rewrite L.
  - rewrite E1, E2. split; [auto|]. split; [auto|].
    unfold get_buf. destruct (c_new c) eqn:N; simpl; [tauto|]. rewrite N. auto.
  - rewrite E1, E2, E3, E4, E5. auto.
Qed.

Lemma inv11_step : forall sdu, 0 <= sdu < 60000 ->
  forall c h o c' b, cop_ok o -> inv11 sdu c h -> cstep c o = Ok (c', b) -> inv11 sdu c' (b :: h).
Proof.
  intros sdu Hs c h o c' b Ho I E. destruct o as [f|ok|d dl sl|d kl]; simpl in E, Ho.
  - destruct (data_ind c f) as [[c1 ev]| |] eqn:D; try discriminate. simpl in E.
    inversion E; subst; clear E.
    destruct (data_ind_shape _ _ _ _ D) as [(N & ->)|(N & Hst & cy & st & ->)]; rewrite N.
    + eapply inv11_same; eauto.
    + pose proof (data_ind_accept_len _ _ _ _ Ho D N) as L. destruct I as (A & B & C).
      unfold inv11. simpl. split; [auto|]. split; [|split; [auto|congruence]].
      split; [split; [auto|congruence]|]. apply u16_id. destruct Ho. lia.
  - inversion E; subst; clear E. eapply inv11_same; eauto; unfold expired;
      destruct (c_ci c) eqn:CI; auto; destruct (c_state c); auto; try (rewrite CI; auto);
      destruct (c_hold c <=? c_dht c); simpl; try rewrite CI; auto.
  - destruct (get_data_and_iops c d dl sl) as [[c1 r]| |] eqn:D; try discriminate.
    simpl in E. inversion E; subst; clear E.
    destruct (get_data_shape _ _ _ _ _ _ D) as [(-> & _)|(_ & -> & _)].
    + eapply inv11_same; eauto.
    + pose proof (get_buf_same c) as G. simpl in G. eapply inv11_same; eauto; tauto.
  - destruct (get_iocs c d kl) as [[c1 r]| |] eqn:D; try discriminate.
    simpl in E. inversion E; subst; clear E.
    destruct (get_iocs_shape _ _ _ _ _ D) as [(-> & _)|(_ & -> & _)].
    + eapply inv11_same; eauto.
    + pose proof (get_buf_same c) as G. simpl in G. eapply inv11_same; eauto; tauto.
Qed.

Lemma copy_out_latest : forall sdu f d new, 0 <= sdu < 60000 -> frame_ok sdu f -> desc_in sdu d ->
  copy_out (Some (f, b_fpos f + 2)) d new =
  Ok (mkRd 0 new (part f (d_off d) (d_len d)) (part f (s_off d) (s_len d))).
Proof.
  intros sdu f d new Hs ((P1 & P2 & P3) & L) (D1 & D2 & D3 & D4 & D5 & D6).
  unfold net_length in L. unfold copy_out.
  rewrite !slice_ok by lia. reflexivity.
Qed.

(** After any history, a read by an application with large enough buffers on a
    running consumer gives exactly the bytes of the newest accepted frame. *)
Theorem C11_read_returns_latest : forall hold sdu sa ops c h d dl sl,
  0 <= sdu < 60000 -> Forall cop_ok ops -> desc_in sdu d ->
  crun (started hold sdu sa) [] ops = Ok (c, h) ->
  c_state c <> CWStart -> d_len d <= dl -> s_len d <= sl ->
  exists c' new,
    get_data_and_iops c d dl sl =
    Ok (c', match latest h with
            | Some f => mkRd 0 new (part f (d_off d) (d_len d)) (part f (s_off d) (s_len d))
            | None => rd_fail
            end).
Proof.
  intros hold sdu sa ops c h d dl sl Hs F Hd R St Hdl Hsl.
  assert (I0 : inv11 sdu (started hold sdu sa) []).
  { unfold inv11. split; [|simpl; auto]. change (u16 (2 * 6 + 2 + 2 + sdu + 2 + 1 + 1) = sdu + 20). rewrite u16_id; lia. }
  pose proof (crun_inv_ok cop_ok (inv11 sdu) (inv11_step sdu Hs) ops _ _ _ _ F I0 R) as (A & B & C).
  unfold get_data_and_iops.
  assert (E : (dl <? d_len d) || (sl <? s_len d) = false).
  { destruct (Z.ltb_spec dl (d_len d)); [lia|]. destruct (Z.ltb_spec sl (s_len d)); [lia|auto]. }
  rewrite E.
  assert (Q : exists c', get_buf c = (c', c_new c) /\ c_app c' = latest h /\ c_bpos c' = c_bpos c).
  { unfold get_buf. destruct (c_new c) eqn:N; [eexists; split; [reflexivity|]; simpl; tauto|].
    exists c. auto. }
  destruct Q as (c' & Q1 & Q2 & Q3). rewrite Q1. exists c', (c_new c).
  unfold buf_ptr. rewrite Q2, Q3.
  destruct (c_state c); [congruence| |];
    (destruct (latest h) as [f|];
     [destruct B as (B1 & B2); rewrite B2, (copy_out_latest sdu) by auto; reflexivity|reflexivity]).
Qed.
Print Assumptions C11_read_returns_latest.

(** ** Concurrent reads *)
Definition zreader (t : nat) (l : clab) : Prop :=
  match l with KRd1 t' _ _ _ | KRd2 t' | KRd3 t' => t' = t | _ => True end.

Definition zlab_ok (P sdu : Z) (l : clab) : Prop :=
  match l with
  | KRx1 f => plausible f /\ b_fpos f = P
  | KRd1 _ d _ _ => desc_in sdu d
  | _ => True
  end.

(** Identities of the buffers that arrive. *)
Definition ids (ls : list clab) : list nat :=
  flat_map (fun l => match l with KRx1 f => [b_id f] | _ => [] end) ls.

Definition oid (o : option buf) : list nat := match o with Some b => [b_id b] | None => [] end.

(** Buffers held: the two slots, and the replaced buffer while the frame handler
    is between its two parts. *)
Definition held (z : csys) : list nat :=
  oid (c_app (z_cpm z)) ++ oid (c_cpm (z_cpm z)) ++
  match z_rx z with RxMid _ old _ _ => oid old | RxIdle => [] end.

(** A finished read is right with respect to the frame that was the newest
    accepted one when the read began. *)
Definition out_ok (e : iodata * option buf * rdres) : Prop :=
  match e with
  | (d, None, r) => r = rd_fail
  | (d, Some f, r) => exists new,
      r = mkRd 0 new (part f (d_off d) (d_len d)) (part f (s_off d) (s_len d))
  end.

Definition inv12 (z : csys) : Prop := Permutation (z_recv z) (held z ++ z_freed z).

Lemma freed_ids_app : forall a b, freed_ids (a ++ b) = freed_ids a ++ freed_ids b.
Proof. intros. unfold freed_ids. apply flat_map_app. Qed.

Lemma freed_data_ind_2 : forall c fpos old cy st,
  freed_ids (snd (data_ind_2 c fpos old cy st)) = oid old.
Proof.
  intros. unfold data_ind_2. cbn [snd]. rewrite !freed_ids_app.
  destruct (Z.lxor (c_status c) st =? 0), old; reflexivity.
Qed.

Lemma expired_bufs : forall c ok, let c' := fst (expired c ok) in
  c_app c' = c_app c /\ c_cpm c' = c_cpm c /\ c_new c' = c_new c /\
  c_bpos c' = c_bpos c /\ c_blen c' = c_blen c.
Proof.
  intros c ok. unfold expired. destruct (c_ci c) eqn:CI; simpl; auto.
  destruct (c_state c); simpl; try rewrite CI; simpl; auto.
  destruct (c_hold c <=? c_dht c); simpl; try rewrite CI; auto.
Qed.

Lemma inv12_step : forall z l z', inv12 z -> zstep z l = Ok z' -> inv12 z'.
Proof.
  intros z l z' I E. unfold inv12, held in *. destruct l as [f| |ok|t d dl sl|t|t]; cbn [zstep] in E.
  - destruct (z_rx z) eqn:RX; [|inversion E; subst; rewrite RX; auto].
    destruct (data_ind_1 (z_cpm z) f) as [r| |] eqn:D; try discriminate. simpl in E.
    destruct (data_ind_1_shape _ _ _ D) as [->|(_ & ev & cy & st & -> & F & _)];
      inversion E; subst; clear E; simpl.
    + apply Permutation_cons_app. exact I.
    + rewrite F. simpl. rewrite app_nil_r in I.
      apply (Permutation_trans (l' := b_id f :: (oid (c_app (z_cpm z)) ++ oid (c_cpm (z_cpm z))) ++ z_freed z)).
      * constructor. exact I.
      * rewrite <- !app_assoc. simpl. apply Permutation_cons_app. reflexivity.
  - destruct (z_rx z) eqn:RX; [inversion E; subst; rewrite RX; auto|].
    pose proof (freed_data_ind_2 (z_cpm z) fpos old cycle status) as F.
    destruct (data_ind_2 (z_cpm z) fpos old cycle status) as (c1 & ev) eqn:D. simpl in F.
    inversion E; subst; clear E. simpl. rewrite F, app_nil_r.
    unfold data_ind_2 in D. inversion D; subst; clear D. simpl.
    rewrite <- app_assoc. rewrite <- !app_assoc in I. exact I.
  - inversion E; subst; clear E. simpl. pose proof (expired_bufs (z_cpm z) ok) as X. simpl in X.
    destruct X as (X1 & X2 & _). rewrite X1, X2. exact I.
  - destruct (z_rd z t) eqn:RD; try (inversion E; subst; auto; fail).
    assert (G : (if (dl <? d_len d) || (sl <? s_len d) then Ok z
        else let '(c, new) := get_buf (z_cpm z) in
          Ok (mkCsys c (z_rx z) (upd (z_rd z) t (RdGot d new)) (z_freed z) (z_recv z) (z_acc z)
                (upd (z_src z) t (hd_error (z_acc z))) (z_out z))) = Ok z' ->
      Permutation (z_recv z')
        ((oid (c_app (z_cpm z')) ++ oid (c_cpm (z_cpm z')) ++
          match z_rx z' with RxIdle => [] | RxMid _ old _ _ => oid old end) ++ z_freed z')).
    { destruct ((dl <? d_len d) || (sl <? s_len d)); [intros K; inversion K; subst; auto|].
      unfold get_buf. destruct (c_new (z_cpm z)); intros K; inversion K; subst; simpl; [|auto].
      eapply Permutation_trans; [exact I|]. apply Permutation_app_tail.
      rewrite !app_assoc. apply Permutation_app_tail. apply Permutation_app_comm. }
    destruct (c_state (z_cpm z)); [inversion E; subst; auto| |]; apply G; auto.
  - destruct (z_rd z t); inversion E; subst; auto.
  - destruct (z_rd z t); try (inversion E; subst; auto; fail).
    destruct (match p with Some (b, _) => _ | None => false end); try discriminate.
    destruct (copy_out p d new); simpl in E; inversion E; subst; auto.
Qed.

Lemma zstep_recv : forall z l z', zstep z l = Ok z' ->
  z_recv z' = z_recv z \/ exists f, l = KRx1 f /\ z_recv z' = b_id f :: z_recv z.
Proof.
  intros z l z' E. destruct l as [f| |ok|t d dl sl|t|t]; simpl in E.
  - destruct (z_rx z); [|inversion E; auto].
    destruct (data_ind_1 (z_cpm z) f) as [[]| |]; simpl in E; inversion E; subst; eauto.
  - destruct (z_rx z); inversion E; auto.
  - inversion E; auto.
  - destruct (z_rd z t); try (inversion E; auto; fail).
    destruct (c_state (z_cpm z)), ((dl <? d_len d) || (sl <? s_len d)), (get_buf (z_cpm z)); inversion E; auto.
  - destruct (z_rd z t); inversion E; auto.
  - destruct (z_rd z t); try (inversion E; auto; fail).
    destruct (match p with Some (b, _) => _ | None => false end); try discriminate.
    destruct (copy_out p d new); simpl in E; inversion E; subst; auto.
Qed.

Lemma nodup_step : forall z l ls z', zstep z l = Ok z' ->
  NoDup (z_recv z ++ ids (l :: ls)) -> NoDup (z_recv z' ++ ids ls).
Proof.
  intros z l ls z' E H. unfold ids in H. simpl in H.
  destruct (zstep_recv _ _ _ E) as [->|(f & -> & ->)].
  - destruct l; simpl in H; auto. apply NoDup_remove_1 in H. auto.
  - simpl in *. constructor.
    + apply NoDup_remove_2 in H. exact H.
    + apply NoDup_remove_1 in H. exact H.
Qed.

Lemma nodup_app_l : forall (A : Type) (a b : list A), NoDup (a ++ b) -> NoDup a.
Proof.
  induction a as [|x a IH]; intros b H; [constructor|]. inversion H; subst. constructor.
  - intros K. apply H2. apply in_or_app. auto.
  - eapply IH; eauto.
Qed.

(** * C12: buffers *)

(** Whatever the interleaving of the receive thread, the timer and the
    application threads: every received buffer is held or freed, exactly once. *)
Theorem C12_buffers_accounted : forall c0 ls z,
  c_app c0 = None -> c_cpm c0 = None -> NoDup (ids ls) ->
  zrun (csys0 c0) ls = Ok z ->
  Permutation (z_recv z) (held z ++ z_freed z) /\ NoDup (held z ++ z_freed z) /\
  (z_rx z = RxIdle -> (length (held z) <= 2)%nat).
Proof.
  intros c0 ls z A C N R.
  assert (I : inv12 (csys0 c0)) by (unfold inv12, held; simpl; rewrite A, C; constructor).
  assert (N' : NoDup (z_recv (csys0 c0) ++ ids ls)) by exact N.
  revert I N' R. generalize (csys0 c0). clear.
  induction ls as [|l ls IH]; intros z0 I N R; simpl in R.
  - inversion R; subst. split; [exact I|]. split.
    + rewrite app_nil_r in N. eapply Permutation_NoDup; eauto.
    + intros RX. unfold held. rewrite RX.
      destruct (c_app (z_cpm z)), (c_cpm (z_cpm z)); simpl; lia.
  - destruct (zstep z0 l) as [z1| |] eqn:E; try discriminate. simpl in R.
    apply (IH z1); auto.
    + eapply inv12_step; eauto.
    + eapply nodup_step; eauto.
Qed.
Print Assumptions C12_buffers_accounted.

(** Closing the consumer frees exactly what it holds. *)
Theorem C12_close_frees_all : forall c0 ls z,
  c_app c0 = None -> c_cpm c0 = None -> NoDup (ids ls) ->
  zrun (csys0 c0) ls = Ok z -> z_rx z = RxIdle ->
  Permutation (z_recv z) (freed_ids (snd (close_req (z_cpm z))) ++ z_freed z) /\
  NoDup (freed_ids (snd (close_req (z_cpm z))) ++ z_freed z).
Proof.
  intros c0 ls z A C N R RX.
  destruct (C12_buffers_accounted _ _ _ A C N R) as (P & D & _).
  assert (Q : Permutation (held z) (freed_ids (snd (close_req (z_cpm z))))).
  { unfold held, close_req. rewrite RX, app_nil_r. cbn [snd]. rewrite freed_ids_app.
    eapply Permutation_trans; [apply Permutation_app_comm|].
    destruct (c_cpm (z_cpm z)), (c_app (z_cpm z)); reflexivity. }
  assert (S : Permutation (z_recv z) (freed_ids (snd (close_req (z_cpm z))) ++ z_freed z)).
  { eapply Permutation_trans; [exact P|]. apply Permutation_app_tail. exact Q. }
  split; auto. eapply Permutation_NoDup; [|exact D]. apply Permutation_app_tail. exact Q.
Qed.
Print Assumptions C12_close_frees_all.

(** ** The invariant for concurrent reads *)
Record inv11c (P sdu : Z) (t : nat) (z : csys) : Prop := {
  i_len : c_blen (z_cpm z) = sdu + 20;
  i_pos : c_bpos (z_cpm z) = P + 2;
  i_acc : Forall (fun f => frame_ok sdu f /\ b_fpos f = P) (z_acc z);
  i_new : if c_new (z_cpm z) then c_cpm (z_cpm z) = hd_error (z_acc z)
          else c_app (z_cpm z) = hd_error (z_acc z);
  i_rd : match z_rd z t with
         | RdIdle => True
         | RdGot d new => desc_in sdu d /\ c_app (z_cpm z) = z_src z t
         | RdPtr d new p => desc_in sdu d /\ c_app (z_cpm z) = z_src z t /\
                            p = option_map (fun b => (b, P + 2)) (z_src z t)
         end;
  i_src : forall f, z_src z t = Some f -> frame_ok sdu f /\ b_fpos f = P;
  i_mid : match z_rx z with RxMid fpos _ _ _ => fpos = P | RxIdle => True end;
  i_out : Forall out_ok (z_out z);
  i_12 : inv12 z;
  i_nd : NoDup (z_recv z)
}.

Lemma byte_at_ok : forall l i, 0 <= i < Z.of_nat (length l) -> exists v, byte_at l i = Ok v.
Proof.
  intros l i H. unfold byte_at. destruct (Z.leb_spec 0 i); [|lia].
  destruct (Z.ltb_spec i (Z.of_nat (length l))); [|lia]. simpl. eauto.
Qed.

Lemma data_ind_1_put_len : forall c f ev old cy st c', plausible f ->
  data_ind_1 c f = Ok (RxPut c' ev old cy st) -> net_length f = c_blen c.
Proof.
  intros c f ev old cy st c' Hp D.
  destruct (c_state c) eqn:ES; [unfold data_ind_1 in D; rewrite ES in D; discriminate| |];
    (destruct (tail4 (b_data f)) as (pre & hi & lo & ds & ts & E); [destruct Hp; lia|]);
    (rewrite (data_ind_1_eval c f pre hi lo ds ts) in D by (auto; congruence));
    (destruct (accepts c f hi lo ds ts) eqn:A; [|discriminate]);
    unfold accepts in A; rewrite !andb_true_iff, !Z.eqb_eq in A; tauto.
Qed.

Lemma data_ind_1_total : forall c f, plausible f -> exists r, data_ind_1 c f = Ok r.
Proof.
  intros c f Hp.
  destruct (c_state c) eqn:ES; [unfold data_ind_1; rewrite ES; eauto| |];
    (destruct (tail4 (b_data f)) as (pre & hi & lo & ds & ts & E); [destruct Hp; lia|]);
    (rewrite (data_ind_1_eval c f pre hi lo ds ts) by (auto; congruence));
    destruct (accepts c f hi lo ds ts); eauto.
Qed.

Lemma upd_same : forall (A : Type) (f : nat -> A) i v, upd f i v i = v.
Proof. intros. unfold upd. rewrite Nat.eqb_refl. reflexivity. Qed.

Lemma inv11c_step : forall P sdu t z l ls, 0 <= sdu < 60000 -> 14 <= P < 60000 ->
  inv11c P sdu t z -> zreader t l -> zlab_ok P sdu l -> NoDup (z_recv z ++ ids (l :: ls)) ->
  exists z', zstep z l = Ok z' /\ inv11c P sdu t z' /\ NoDup (z_recv z' ++ ids ls).
Proof.
  intros P sdu t z l ls Hs HP I Ht Hl HN.
  assert (T : exists z', zstep z l = Ok z' /\
            (inv12 z' -> NoDup (z_recv z') -> inv11c P sdu t z')).
  { destruct I as [I1 I2 I3 I4 I5 I6 I7 I8 I9 I10].
    destruct l as [f| |ok|t' d dl sl|t'|t']; simpl in Ht, Hl |- *; try subst t'.
    - destruct Hl as (Hp & Hf).
      destruct (z_rx z) eqn:RX; [|exists z; split; [reflexivity|]; intros J1 J2; constructor; auto; rewrite RX; auto].
      destruct (data_ind_1_total (z_cpm z) f Hp) as (r & D). rewrite D. cbn [obind].
      pose proof D as D'.
      destruct (data_ind_1_shape _ _ _ D) as [->|(_ & ev & cy & st & -> & F & _)].
      + eexists; split; [reflexivity|]. intros J1 J2. constructor; simpl; auto.
      + pose proof (data_ind_1_put_len _ _ _ _ _ _ _ Hp D') as L.
        eexists; split; [reflexivity|]. intros J1 J2. constructor; simpl; auto.
        constructor; auto. split; [split; [auto|congruence]|auto].
    - destruct (z_rx z) eqn:RX; [exists z; split; [reflexivity|]; intros J1 J2; constructor; auto; rewrite RX; auto|].
      eexists; split; [reflexivity|]. intros J1 J2. constructor; simpl; auto.
      subst fpos. apply u16_id. lia.
    - eexists; split; [reflexivity|]. pose proof (expired_bufs (z_cpm z) ok) as X. simpl in X.
      destruct X as (X1 & X2 & X3 & X4 & X5).
      intros J1 J2. constructor; simpl; rewrite ?X1, ?X2, ?X3, ?X4, ?X5; auto.
    - destruct (z_rd z t) eqn:RD;
        try (exists z; split; [reflexivity|]; intros J1 J2; constructor; auto; rewrite RD; auto; fail).
      assert (G : exists z', (if (dl <? d_len d) || (sl <? s_len d) then Ok z
        else let '(c, new) := get_buf (z_cpm z) in
          Ok (mkCsys c (z_rx z) (upd (z_rd z) t (RdGot d new)) (z_freed z) (z_recv z) (z_acc z)
                (upd (z_src z) t (hd_error (z_acc z))) (z_out z))) = Ok z' /\
          (inv12 z' -> NoDup (z_recv z') -> inv11c P sdu t z')).
      { destruct ((dl <? d_len d) || (sl <? s_len d)).
        - exists z; split; [reflexivity|]; intros J1 J2; constructor; auto; rewrite RD; auto.
        - assert (SRC : forall f, hd_error (z_acc z) = Some f -> frame_ok sdu f /\ b_fpos f = P).
          { intros f HF. destruct (z_acc z) as [|x acc]; simpl in HF; [discriminate|].
            inversion HF; subst. inversion I3; subst. auto. }
          unfold get_buf. destruct (c_new (z_cpm z)) eqn:NW.
          + eexists; split; [reflexivity|]. intros J1 J2. constructor; simpl; auto.
            * rewrite !upd_same. auto.
            * rewrite upd_same. auto.
          + eexists; split; [reflexivity|]. intros J1 J2. constructor; simpl; auto.
            * rewrite NW. auto.
            * rewrite !upd_same. auto.
            * rewrite upd_same. auto. }
      destruct (c_state (z_cpm z)); auto.
      exists z; split; [reflexivity|]; intros J1 J2; constructor; auto; rewrite RD; auto.
    - destruct (z_rd z t) eqn:RD;
        try (exists z; split; [reflexivity|]; intros J1 J2; constructor; auto; rewrite RD; auto; fail).
      eexists; split; [reflexivity|]. intros J1 J2. constructor; simpl; auto.
      rewrite upd_same. destruct I5 as (I5 & I5'). split; auto. split; auto.
      unfold buf_ptr. rewrite I5', I2. destruct (z_src z t); reflexivity.
    - destruct (z_rd z t) eqn:RD;
        try (exists z; split; [reflexivity|]; intros J1 J2; constructor; auto; rewrite RD; auto; fail).
      destruct I5 as (K1 & K2 & K3). subst p.
      destruct (z_src z t) as [b|] eqn:SR; cbn [option_map].
      + replace (existsb (Nat.eqb (b_id b)) (z_freed z)) with false.
        2:{ symmetry. apply not_true_iff_false. rewrite existsb_exists. intros (i & Hi & Ei).
            apply Nat.eqb_eq in Ei. subst i.
            pose proof (Permutation_NoDup I9 I10) as ND. unfold held in ND. rewrite K2 in ND. simpl in ND.
            inversion ND; subst. apply H1. apply in_or_app. auto. }
        destruct (I6 b eq_refl) as (FO & FP). rewrite <- FP.
        rewrite (copy_out_latest sdu) by auto. cbn [obind].
        eexists; split; [reflexivity|]. intros J1 J2. constructor; simpl; auto.
        * lia.
        * rewrite FP. auto.
        * rewrite upd_same. auto.
        * rewrite SR. auto. rewrite FP. intros f X. inversion X; subst. auto.
        * rewrite FP. auto.
        * constructor; auto. simpl. eauto.
      + cbn [copy_out obind]. eexists; split; [reflexivity|]. intros J1 J2. constructor; simpl; auto.
        * rewrite upd_same. auto.
        * rewrite SR. discriminate.
        * constructor; auto. reflexivity. }
  destruct T as (z' & E & K). exists z'. split; auto.
  assert (N' : NoDup (z_recv z' ++ ids ls)) by (eapply nodup_step; eauto).
  split; auto. apply K.
  - eapply inv12_step; [|exact E]. exact (i_12 _ _ _ _ I).
  - eapply nodup_app_l; eauto.
Qed.

Lemma inv11c_run : forall P sdu t ls z, 0 <= sdu < 60000 -> 14 <= P < 60000 ->
  inv11c P sdu t z -> Forall (zreader t) ls -> Forall (zlab_ok P sdu) ls ->
  NoDup (z_recv z ++ ids ls) ->
  exists z', zrun z ls = Ok z' /\ inv11c P sdu t z'.
Proof.
  intros P sdu t ls. induction ls as [|l ls IH]; intros z Hs HP I F1 F2 N; simpl.
  - eauto.
  - inversion F1; subst. inversion F2; subst.
    destruct (inv11c_step P sdu t z l ls Hs HP I H1 H3 N) as (z' & E & I' & N').
    rewrite E. cbn [obind]. auto.
Qed.

(** Untagged frames: with one reading thread, any interleaving with reception
    and the timer is free of undefined behaviour, and each finished read returned
    the bytes of the frame that was the newest accepted one when it began. *)
Theorem C11_concurrent_reads : forall hold sdu sa t ls,
  0 <= sdu < 60000 -> Forall (zreader t) ls -> Forall (zlab_ok 14 sdu) ls -> NoDup (ids ls) ->
  exists z, zrun (csys0 (started hold sdu sa)) ls = Ok z /\ Forall out_ok (z_out z).
Proof.
  intros hold sdu sa t ls Hs F1 F2 N.
  destruct (inv11c_run 14 sdu t ls (csys0 (started hold sdu sa))) as (z & R & I); auto; try lia.
  - constructor; simpl; auto; try constructor.
    + change (u16 (2 * 6 + 2 + 2 + sdu + 2 + 1 + 1) = sdu + 20). rewrite u16_id; lia.
    + discriminate.
    + discriminate.
  - exists z. split; auto. exact (i_out _ _ _ _ I).
Qed.
Print Assumptions C11_concurrent_reads.

(** VLAN tagged frames (or any other constant header length [P]): the same holds
    once the first accepted frame has been processed without interference. *)
Theorem C11_concurrent_reads_after_first : forall hold sdu sa t f ls,
  0 <= sdu < 60000 -> plausible f -> b_fpos f < 60000 ->
  acceptable (started hold sdu sa) f ->
  Forall (zreader t) ls -> Forall (zlab_ok (b_fpos f) sdu) ls -> NoDup (b_id f :: ids ls) ->
  exists z, zrun (csys0 (started hold sdu sa)) (KRx1 f :: KRx2 :: ls) = Ok z /\
            Forall out_ok (z_out z).
Proof.
  intros hold sdu sa t f ls Hs Hp Hf Ha F1 F2 N.
  assert (BL : c_blen (started hold sdu sa) = sdu + 20).
  { change (u16 (2 * 6 + 2 + 2 + sdu + 2 + 1 + 1) = sdu + 20). rewrite u16_id; lia. }
  destruct (tail4 (b_data f)) as (pre & hi & lo & ds & ts & E); [destruct Hp; lia|].
  pose proof (proj2 (accepts_spec _ f pre hi lo ds ts Hp E) Ha) as A.
  assert (NL : net_length f = sdu + 20).
  { unfold accepts in A. rewrite !andb_true_iff, !Z.eqb_eq in A. destruct A as (((A0 & A1) & A2) & A3). congruence. }
  cbn [zrun]. cbn [zstep csys0 z_rx z_cpm].
  rewrite (data_ind_1_eval _ f pre hi lo ds ts); auto; [|discriminate]. rewrite A.
  cbn [obind zstep z_rx].
  destruct Hp as (Hp1 & Hp2 & Hp3).
  match goal with |- context [data_ind_2 ?c ?a ?b ?d ?e] =>
    assert (D2 : exists c' ev, data_ind_2 c a b d e = (c', ev) /\ freed_ids ev = [] /\
       c_blen c' = sdu + 20 /\ c_bpos c' = b_fpos f + 2 /\ c_new c' = true /\
       c_cpm c' = Some f /\ c_app c' = None) end.
  { do 2 eexists. split; [reflexivity|]. split.
    - rewrite !freed_ids_app. destruct (Z.lxor _ _ =? 0); reflexivity.
    - repeat split; auto. apply u16_id. lia. }
  destruct D2 as (c' & ev & D2 & V & L1 & L2 & L3 & L4 & L5).
  rewrite D2. cbn [obind].
  match goal with |- context [zrun ?z ls] =>
    destruct (inv11c_run (b_fpos f) sdu t ls z) as (z' & R & I); auto; try lia end.
  - constructor; simpl; auto; try (constructor; fail).
    + constructor; [|constructor]. split; auto. split; auto. split; auto.
    + rewrite L3. auto.
    + discriminate.
    + rewrite V. unfold inv12, held. simpl. rewrite L4, L5. simpl. apply Permutation_refl.
    + constructor; [simpl; tauto|constructor].
  - exists z'. split; auto. exact (i_out _ _ _ _ I).
Qed.
Print Assumptions C11_concurrent_reads_after_first.

(** Without that condition it fails: when the first frame carries a VLAN tag, a
    read between the two parts of the frame handler uses the old data position,
    and returns bytes shifted by the four bytes of the tag. *)
Theorem C11_tagged_first_frame_refuted : exists ls z,
  Forall (zreader 0) ls /\ Forall (zlab_ok 18 40) ls /\ NoDup (ids ls) /\
  zrun (csys0 (started 3 40 ex_mac)) ls = Ok z /\ ~ Forall out_ok (z_out z).
Proof.
  exists [KRx1 (ex_frame 0 true 10 (ex_pay 1)); KRd1 0 (mkIodata 0 4 4 1 5 1) 4 1; KRd2 0; KRd3 0; KRx2].
  eexists. split; [repeat constructor|]. split.
  - constructor; [|constructor; [|repeat constructor]].
    + split; [|reflexivity]. unfold plausible. split; [vm_compute; congruence|].
      split; [vm_compute; split; congruence|]. vm_compute. repeat constructor; congruence.
    + unfold zlab_ok, desc_in. simpl. lia.
  - split; [repeat constructor; simpl; tauto|]. split; [vm_compute; reflexivity|].
    intros F. inversion F; subst. destruct H1 as (new & H1). vm_compute in H1. discriminate.
Qed.
Print Assumptions C11_tagged_first_frame_refuted.

(** With two reading threads the first one can be left with a pointer to a
    buffer that has been freed (undefined behaviour). *)
Theorem C11_two_readers_refuted : exists ls,
  Forall (zlab_ok 14 40) ls /\ NoDup (ids ls) /\
  zrun (csys0 (started 3 40 ex_mac)) ls = Ub.
Proof.
  exists [KRx1 (ex_frame 0 false 10 (ex_pay 1)); KRx2; KRd1 0 ex_desc 3 1; KRd2 0;
          KRx1 (ex_frame 1 false 20 (ex_pay 2)); KRx2; KRd1 1 ex_desc 3 1;
          KRx1 (ex_frame 2 false 30 (ex_pay 3)); KRx2; KRd3 0].
  split; [|split; [repeat constructor; simpl; lia|vm_compute; reflexivity]].
  assert (PL : forall i c p, 0 <= c < 65536 -> 0 <= p < 256 ->
    zlab_ok 14 40 (KRx1 (ex_frame i false c (ex_pay p)))).
  { intros i c p Hc Hp. split; [|reflexivity]. unfold plausible. split; [simpl; lia|].
    split; [simpl; lia|]. unfold ex_frame. cbn [b_data].
    assert (0 <= c / 256 < 256) by (split; [apply Z.div_pos; lia|apply Z.div_lt_upper_bound; lia]).
    assert (0 <= c mod 256 < 256) by (apply Z.mod_pos_bound; lia).
    rewrite !Forall_app. repeat split; repeat constructor; lia. }
  repeat (apply Forall_cons || apply Forall_nil); first [apply PL; lia | exact Logic.I | unfold zlab_ok, desc_in; simpl; lia].
Qed.
Print Assumptions C11_two_readers_refuted.

(** * C13: the new-data flag *)

(** Was a frame accepted since the previous successful read of data or consumer
    status? *)
Fixpoint fresh (h : list cobs) : bool :=
  match h with
  | [] => false
  | BFrame _ true :: _ => true
  | BRead _ r :: h' => if r_ret r =? 0 then false else fresh h'
  | BIocs r :: h' => if fst r =? 0 then false else fresh h'
  | _ :: h' => fresh h'
  end.

Definition inv13 (c : cpm) (h : list cobs) : Prop :=
  c_new c = fresh h /\ (c_new c = true -> c_cpm c <> None) /\
  every (fun o older => forall d r, o = BRead d r ->
           (r_ret r = 0 /\ r_new r = fresh older) \/ r = rd_fail) h.

Lemma inv13_step : forall c h o c' b, inv13 c h -> cstep c o = Ok (c', b) -> inv13 c' (b :: h).
Proof.
  intros c h o c' b (H1 & H2 & H3) E. destruct o as [f|ok|d dl sl|d kl]; simpl in E.
  - destruct (data_ind c f) as [[c1 ev]| |] eqn:D; try discriminate. simpl in E.
    inversion E; subst; clear E.
    destruct (data_ind_shape _ _ _ _ D) as [(N & ->)|(N & Hs & cy & st & ->)]; rewrite N.
    + split; [auto|]. split; auto. apply every_cons; auto. intros; discriminate.
    + split; [reflexivity|]. split; [simpl; congruence|].
      apply every_cons; auto. intros; discriminate.
  - inversion E; subst; clear E. pose proof (expired_bufs c ok) as X. simpl in X.
    destruct X as (_ & X2 & X3 & _). split; [cbn [fresh]; congruence|]. split; [rewrite X2, X3; auto|].
    apply every_cons; auto. intros; discriminate.
  - destruct (get_data_and_iops c d dl sl) as [[c1 r]| |] eqn:D; try discriminate.
    simpl in E. inversion E; subst; clear E.
    destruct (get_data_shape _ _ _ _ _ _ D) as [(-> & ->)|(_ & -> & CO)].
    + split; [simpl; auto|]. split; auto. apply every_cons; auto. intros d' r' K. inversion K; auto.
    + pose proof (get_buf_same c) as G. simpl in G.
      assert (N : c_new (fst (get_buf c)) = false) by tauto.
      assert (Q : (r_ret r = 0 /\ r_new r = c_new c) \/ (r = rd_fail /\ c_app (fst (get_buf c)) = None)).
      { unfold copy_out, buf_ptr in CO. destruct (c_app (fst (get_buf c))) eqn:EA.
        - destruct (slice _ _ _); try discriminate. simpl in CO.
          destruct (slice _ _ _); try discriminate. simpl in CO. inversion CO; subst. left. auto.
        - inversion CO; subst. auto. }
      assert (FR : fresh (BRead d r :: h) = false).
      { simpl. destruct Q as [(Q1 & _)|(-> & Q2)]; [rewrite Q1; reflexivity|]. simpl.
        rewrite <- H1. unfold get_buf in Q2. destruct (c_new c) eqn:NW; [|auto]. simpl in Q2.
        exfalso. apply H2; auto. }
      split; [congruence|]. split; [congruence|].
      apply every_cons; auto. intros d' r' K. inversion K; subst.
      destruct Q as [(Q1 & Q2)|(Q1 & _)]; [left|right]; auto. split; congruence.
  - destruct (get_iocs c d kl) as [[c1 r]| |] eqn:D; try discriminate.
    simpl in E. inversion E; subst; clear E.
    destruct (get_iocs_shape _ _ _ _ _ D) as [(-> & ->)|(_ & -> & AP)].
    + split; [simpl; auto|]. split; auto. apply every_cons; auto. intros; discriminate.
    + pose proof (get_buf_same c) as G. simpl in G.
      assert (N : c_new (fst (get_buf c)) = false) by tauto.
      assert (FR : fresh (BIocs r :: h) = false).
      { simpl. destruct (Z.eqb_spec (fst r) 0); auto. rewrite <- H1.
        destruct (c_new c) eqn:NW; auto. exfalso. apply n. apply AP.
        unfold get_buf. rewrite NW. simpl. auto. }
      split; [congruence|]. split; [congruence|].
      apply every_cons; auto. intros; discriminate.
Qed.

(** Proved part: the flag of each successful read tells whether a frame was
    accepted since the previous successful read of data OR of consumer status
    (pnet_input_get_iocs) on the same CR.  Missing for the full property: reads
    of consumer status should not count; see [C13_iocs_read_refuted]. *)
Theorem C13_new_flag_partial : forall hold sdu sa ops c newer d r older,
  crun (started hold sdu sa) [] ops = Ok (c, newer ++ BRead d r :: older) ->
  (r_ret r = 0 /\ r_new r = fresh older) \/ r = rd_fail.
Proof.
  intros hold sdu sa ops c newer d r older R.
  assert (I0 : inv13 (started hold sdu sa) []).
  { split; [reflexivity|]. split; [discriminate|apply every_nil]. }
  destruct (crun_inv inv13 inv13_step ops _ _ _ _ I0 R) as (_ & _ & V).
  exact (V _ _ _ eq_refl d r eq_refl).
Qed.
Print Assumptions C13_new_flag_partial.

(** Was a frame accepted since the previous successful read of data? *)
Fixpoint fresh_data (h : list cobs) : bool :=
  match h with
  | [] => false
  | BFrame _ true :: _ => true
  | BRead _ r :: h' => if r_ret r =? 0 then false else fresh_data h'
  | _ :: h' => fresh_data h'
  end.

(** When the application only reads data, that is the property in full. *)
Theorem C13_new_flag_without_iocs_reads : forall hold sdu sa ops c newer d r older,
  (forall x, ~ In (BIocs x) older) ->
  crun (started hold sdu sa) [] ops = Ok (c, newer ++ BRead d r :: older) ->
  (r_ret r = 0 /\ r_new r = fresh_data older) \/ r = rd_fail.
Proof.
  intros hold sdu sa ops c newer d r older NI R.
  assert (EQ : fresh older = fresh_data older).
  { clear R newer r d. induction older as [|b older IH]; auto.
    assert (fresh older = fresh_data older) by (apply IH; intros x K; apply (NI x); right; auto).
    destruct b as [f [|]|s|d r|x]; simpl; auto.
    - rewrite H. reflexivity.
    - exfalso. apply (NI x). left. auto. }
  rewrite <- EQ. eapply C13_new_flag_partial; eauto.
Qed.
Print Assumptions C13_new_flag_without_iocs_reads.

(** Reading the consumer status first makes the data read report "not new",
    although a frame was accepted and never read. *)
Theorem C13_iocs_read_refuted : exists ops c d r older,
  crun (started 3 40 ex_mac) [] ops = Ok (c, BRead d r :: older) /\
  r_ret r = 0 /\ r_new r = false /\ fresh_data older = true.
Proof.
  exists [OFrame (ex_frame 0 false 10 (ex_pay 1)); OIocs ex_desc 1; ORead ex_desc 3 1].
  do 4 eexists. split; [vm_compute; reflexivity|]. vm_compute. auto.
Qed.
Print Assumptions C13_iocs_read_refuted.

(** * Non-vacuity *)
Definition ex_pay2 : list Z := map Z.of_nat (seq 0 40).

(** A frame is accepted, a duplicate is not, reads see the accepted bytes; after
    three silent intervals the fourth reports the loss. *)
Example ex_cpm_history : exists c,
  crun (started 3 40 ex_mac) []
    [ORead ex_desc 3 1; OFrame (ex_frame 0 false 10 ex_pay2); ORead ex_desc 3 1;
     OFrame (ex_frame 1 false 10 (ex_pay 7)); ORead ex_desc 3 1;
     OExpire true; OExpire true; OExpire true; OExpire true] =
  Ok (c, [BExpire true; BExpire false; BExpire false; BExpire false;
          BRead ex_desc (mkRd 0 false [2; 3; 4] [5]);
          BFrame (ex_frame 1 false 10 (ex_pay 7)) false;
          BRead ex_desc (mkRd 0 true [2; 3; 4] [5]);
          BFrame (ex_frame 0 false 10 ex_pay2) true;
          BRead ex_desc rd_fail]).
Proof. eexists. vm_compute. reflexivity. Qed.

Example ex_plausible : plausible (ex_frame 0 true 10 ex_pay2) /\
  acceptable (started 3 40 ex_mac) (ex_frame 0 true 10 ex_pay2) /\ desc_in 40 ex_desc.
Proof.
  split.
  - unfold plausible. split; [vm_compute; congruence|].
    split; [vm_compute; split; congruence|]. vm_compute.
    repeat (constructor; [split; [congruence|reflexivity]|]). constructor.
  - split; [|unfold desc_in; simpl; lia].
    exists (firstn 60 (b_data (ex_frame 0 true 10 ex_pay2))), 0, 10, 53.
    split; [reflexivity|]. split; [reflexivity|]. split; [reflexivity|]. split; [|reflexivity].
    exists 11. split; [lia|reflexivity].
Qed.

Example ex_cpm_concurrent : exists z,
  zrun (csys0 (started 3 40 ex_mac))
    [KRx1 (ex_frame 0 false 10 (ex_pay 1)); KRx2; KRd1 0 ex_desc 3 1; KRd2 0;
     KRx1 (ex_frame 1 false 20 (ex_pay 2)); KExpire true; KRd3 0; KRd1 0 ex_desc 3 1; KRx2;
     KRx1 (ex_frame 2 false 30 (ex_pay 3)); KRd2 0; KRx2; KRd3 0] = Ok z /\
  map snd (z_out z) = [mkRd 0 true [2; 2; 2] [2]; mkRd 0 true [1; 1; 1] [1]] /\
  held z = [1; 2]%nat /\ z_freed z = [0]%nat.
Proof. eexists. split; [vm_compute; reflexivity|]. vm_compute. auto. Qed.
