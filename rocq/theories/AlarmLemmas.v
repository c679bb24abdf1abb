(** The invariant of the alarm machines: their state is what the history says. *)

From Coq Require Import List ZArith Arith Bool Lia Permutation.
From Verif Require Import Base BlockModel BlockReadLemmas AlarmModel AlarmSpec AlarmRing.
Import ListNotations.
Set Implicit Arguments.
Open Scope nat_scope.

(** A frame from the driver. *)
Definition frame_wf (m : rmsg) : Prop :=
  Forall byte (g_bytes m) /\ (Z.of_nat (length (g_bytes m)) < 65536)%Z.

Lemma parse_safe : forall p m, frame_wf m -> exists u, parse p m = Ok u /\
  forall t n k d usi len pos, u = PData t n k (BNotify d usi len pos) ->
    (0 <= pos <= Z.max (u16 (g_idpos m + 2)) (Z.of_nat (length (g_bytes m))))%Z /\
    (0 <= len < 65536)%Z.
Proof.
  intros p m (W1 & W2). unfold parse.
  set (r0 := mkRd _ _ _ _ _).
  assert (R0 : rok r0).
  { unfold rok, r0; cbn [r_pos r_len r_buf]. split; [apply u16_range|]. split; [lia|]. split; [lia|auto]. }
  destruct (safe_alarm_fixed true _ R0) as (f & r1 & E1 & _ & S1). rewrite E1; cbn [obind].
  pose proof (rok_step _ _ _ R0 S1) as R1.
  destruct (@safe_u16 true _ R1) as (v & r2 & E2 & _ & S2). rewrite E2; cbn [obind].
  pose proof (rok_step _ _ _ R1 S2) as R2.
  destruct (a_version f =? 1)%Z; [|eexists; split; [reflexivity|discriminate]].
  destruct (a_type f =? 3)%Z; [destruct (v =? 0)%Z; (eexists; split; [reflexivity|discriminate])|].
  destruct (a_type f =? 1)%Z.
  2:{ destruct (a_type f =? 4)%Z; [|eexists; split; [reflexivity|discriminate]].
      destruct (v =? 4)%Z; (eexists; split; [reflexivity|discriminate]). }
  unfold parse_body.
  destruct (safe_block_header true _ R2) as (h & r3 & E3 & _ & S3). rewrite E3; cbn [obind].
  pose proof (rok_step _ _ _ R2 S3) as R3.
  destruct (b_type h =? bt_ack p)%Z.
  { destruct (safe_pnio_status true _ R3) as (s & r4 & E4 & _ & S4). rewrite E4; cbn [obind].
    eexists; split; [reflexivity|]. intros. discriminate. }
  destruct (b_type h =? bt_notify p)%Z.
  2:{ cbn [obind]. eexists; split; [reflexivity|]. intros. discriminate. }
  destruct (safe_alarm_data true _ R3) as (d & r4 & E4 & _ & S4). rewrite E4; cbn [obind].
  pose proof (rok_step _ _ _ R3 S4) as R4.
  destruct (@safe_u16 true _ R4) as (usi & r5 & E5 & _ & S5). rewrite E5; cbn [obind].
  destruct (r_res r5); cbn [obind]; eexists; (split; [reflexivity|]); intros t n k d' usi' len pos X;
    try discriminate.
  injection X; intros; subst.
  split; [|apply u16_range].
  unfold rstep in *. unfold r0 in S1; cbn [r_buf r_len r_pos] in S1.
  destruct S1 as (_ & L1 & P1 & _), S2 as (_ & L2 & P2 & _), S3 as (_ & L3 & P3 & _),
    S4 as (_ & L4 & P4 & _), S5 as (_ & L5 & P5 & _).
  pose proof (u16_range (g_idpos m + 2)). lia.
Qed.

(** ** Numbers *)

Lemma next_canon : forall n, next_seq (canon n) = canon (S n).
Proof.
  intros [|k]; unfold next_seq; cbn [canon]; [reflexivity|].
  change 32767%Z with (Z.ones 15). rewrite Z.land_ones by lia.
  change (2 ^ 15)%Z with 32768%Z.
  rewrite Nat2Z.inj_succ, <- Z.add_1_r. rewrite <- (Zplus_mod_idemp_l (Z.of_nat k)). reflexivity.
Qed.

(** ** Per-priority invariant *)

Definition li_out (l : alpmi) : nat := match l with IAck => 1 | _ => 0 end.
Definition lr_of (o : owing) : alpmr :=
  match o with Nothing => LNotify | Owes => LUserAck | Given => LTack end.

Record okp (cap : nat) (p : bool) (x : px) (tr : list obs)
  (rl : list rmsg) (sl : list alarm) : Prop := mkOkp {
  k_ms : ms x = if waiting p tr then SWtack else SOpen;
  k_mr : mr x <> RClosed;
  k_li : li x <> IStart;
  k_lr : lr x = lr_of (owed p tr);
  k_send : send_seq x = canon (tacks p tr);
  k_send_o : send_seq_o x = before (tacks p tr);
  k_exp : exp_seq x = canon (length (taken p tr));
  k_exp_o : exp_seq_o x = before (length (taken p tr));
  k_sent : length (sent p tr) = tacks p tr + (if waiting p tr then 1 else 0);
  k_rta : match rta x with
          | Some (_, f) => exists n, pending p tr = Some (f, n) /\ n + resend x = agreed tr /\
                             f_tack f = true /\ f_send f = canon (tacks p tr)
          | None => pending p tr = None
          end;
  k_wait : pending p tr <> None -> waiting p tr = true;
  k_acc : accepted p tr = handed p tr ++ sl;
  k_rq : holds cap (rq x) rl;
  k_sq : holds cap (sq x) sl;
  k_in : forall m, In m rl -> In (AIn p m) tr /\ frame_wf m;
  k_out : clean p tr = true -> notified p tr = confirmed p tr + li_out (li x) }.

(** Observations that do not concern priority [p]. *)
Definition neutral (p : bool) (o : obs) : Prop :=
  match o with
  | AAlloc _ | AFree _ | AArm _ _ _ | AFire _ _ | AIn _ _ | ARej _ _ | ARefuse _ _
  | AAbort _ | ACrash | ANoArm _ => True
  | ATx q f _ _ | ALost q f => q <> p \/ (f_tack f = false /\ notif (f_cont f) = [])
  | AAccept q _ | AReTx q _ | ABusy q _ | AInd q _ _ _ _ _ | ACnf q _ | AAckCnf q
  | ATack q _ | ATaken q _ => q <> p
  | AAckRet _ _ => p = false
  | AActivate _ _ _ => False
  end.

Lemma same_ne : forall p q, q <> p -> same q p = false.
Proof. intros [] []; auto; congruence. Qed.
Lemma same_refl : forall p, same p p = true.
Proof. now intros []. Qed.
Lemma same_neg : forall p, same (negb p) p = false.
Proof. now intros []. Qed.

Ltac flat := repeat match goal with
  | H : _ /\ _ |- _ => destruct H
  | H : exists _, _ |- _ => destruct H
  end.

Lemma neutral_funs : forall p o tr, neutral p o ->
  waiting p (o :: tr) = waiting p tr /\ owed p (o :: tr) = owed p tr /\
  tacks p (o :: tr) = tacks p tr /\ taken p (o :: tr) = taken p tr /\
  sent p (o :: tr) = sent p tr /\ pending p (o :: tr) = pending p tr /\
  agreed (o :: tr) = agreed tr /\ accepted p (o :: tr) = accepted p tr /\
  handed p (o :: tr) = handed p tr /\ notified p (o :: tr) = notified p tr /\
  confirmed p (o :: tr) = confirmed p tr /\
  (clean p (o :: tr) = true -> clean p tr = true).
Proof.
  intros p o tr N.
  destruct o; cbn in N; try contradiction; cbn -[Bool.eqb];
    repeat match goal with
    | H : _ \/ _ |- _ => destruct H
    | H : ?q <> ?p |- _ => rewrite (@same_ne p q H); clear H; cbn -[Bool.eqb]
    end;
    rewrite ?app_nil_r, ?andb_false_r; cbn -[Bool.eqb];
    try (repeat split; auto; rewrite ?andb_true_iff; tauto);
    try (subst p);
    try (match goal with H : _ /\ _ |- _ => destruct H as [N1 N2] end; rewrite N1, N2, ?andb_false_r; destruct (same p0 p));
    cbn; rewrite ?app_nil_r; repeat split; auto; rewrite ?andb_true_iff; try tauto; try discriminate.
Qed.

(** The fields of okp that depend on the machine's state. *)
Definition alike (x y : px) : Prop :=
  ms y = ms x /\ lr y = lr x /\ send_seq y = send_seq x /\
  send_seq_o y = send_seq_o x /\ exp_seq y = exp_seq x /\ exp_seq_o y = exp_seq_o x /\
  rta y = rta x /\ resend y = resend x /\ rq y = rq x /\ sq y = sq x /\ li y = li x.

Lemma okp_alike : forall cap p x y tr rl sl, okp cap p x tr rl sl -> alike x y ->
  mr y <> RClosed -> okp cap p y tr rl sl.
Proof.
  intros cap p x y tr rl sl K (A1 & A3 & A4 & A5 & A6 & A7 & A8 & A9 & A10 & A11 & A12) M.
  destruct K. constructor; congruence || (rewrite ?A1, ?A3, ?A4, ?A5, ?A6, ?A7, ?A8, ?A9, ?A10, ?A11, ?A12; auto).
Qed.

Lemma okp_neutral : forall cap p o x tr rl sl, neutral p o -> okp cap p x tr rl sl ->
  okp cap p x (o :: tr) rl sl.
Proof.
  intros cap p o x tr rl sl N K. destruct (@neutral_funs p o tr N) as
    (E1 & E2 & E3 & E4 & E5 & E6 & E7 & E8 & E9 & E10 & E11 & E12).
  destruct K. constructor; rewrite ?E1, ?E2, ?E3, ?E4, ?E5, ?E6, ?E7, ?E8, ?E9, ?E10, ?E11; auto.
  intros m Hm. destruct (k_in0 m Hm). split; [now right|auto].
Qed.

(** ** Buffers and timers *)

Definition occ (b : nat) (l : list nat) : nat := count_occ Nat.eq_dec l b.
Definition bufs (tr : list obs) (nx : nat) (l : list nat) : Prop :=
  (forall b, got b tr = freed b tr + occ b l) /\ (forall b, got b tr <= 1) /\
  (forall b, nx <= b -> got b tr = 0).

Lemma bufs_perm : forall tr nx l l', bufs tr nx l -> Permutation l l' -> bufs tr nx l'.
Proof.
  intros tr nx l l' (A & B & C) P. split; [|split]; auto. intros b. rewrite A. f_equal.
  unfold occ. revert b. apply (Permutation_count_occ Nat.eq_dec). auto.
Qed.

Lemma bufs_next : forall tr nx l, bufs tr nx l -> bufs tr (S nx) l.
Proof. intros tr nx l (A & B & C). split; [|split]; auto. intros b Hb. apply C. lia. Qed.

Lemma bufs_alloc : forall tr nx l, bufs tr nx l -> bufs (AAlloc nx :: tr) (S nx) (nx :: l).
Proof.
  intros tr nx l (A & B & C). unfold bufs, occ; cbn. repeat split; intros b.
  - rewrite A. unfold occ. destruct (Nat.eqb_spec nx b), (Nat.eq_dec nx b); try lia.
  - destruct (Nat.eqb_spec nx b); [subst; rewrite C; lia|apply B].
  - intros Hb. destruct (Nat.eqb_spec nx b); [lia|apply C; lia].
Qed.

Lemma bufs_in : forall tr nx l p m, bufs tr nx l -> g_buf m = nx ->
  bufs (AIn p m :: tr) (S nx) (nx :: l).
Proof.
  intros tr nx l p m (A & B & C) E. unfold bufs, occ; cbn. rewrite E. repeat split; intros b.
  - rewrite A. unfold occ. destruct (Nat.eqb_spec nx b), (Nat.eq_dec nx b); try lia.
  - destruct (Nat.eqb_spec nx b); [subst; rewrite C; lia|apply B].
  - intros Hb. destruct (Nat.eqb_spec nx b); [lia|apply C; lia].
Qed.

Lemma bufs_free : forall tr nx l l' b, bufs tr nx l -> Permutation l (b :: l') ->
  bufs (AFree b :: tr) nx l'.
Proof.
  intros tr nx l l' b H P. apply (bufs_perm H) in P. destruct P as (A & B & C).
  unfold bufs, occ in *; cbn in *. repeat split; auto. intros c. rewrite A.
  destruct (Nat.eqb_spec b c), (Nat.eq_dec b c); lia.
Qed.

Definition nobuf (o : obs) : Prop :=
  match o with AIn _ _ | AAlloc _ | AFree _ => False | _ => True end.
Lemma bufs_other : forall tr nx l o, nobuf o -> bufs tr nx l -> bufs (o :: tr) nx l.
Proof. intros tr nx l o N (A & B & C). destruct o; cbn in N; try contradiction; repeat split; auto. Qed.

Definition tmok (tm : list (nat * bool)) (nx : nat) : Prop :=
  NoDup (map fst tm) /\ forall t, In t (map fst tm) -> t < nx.
Lemma tmok_next : forall tm nx, tmok tm nx -> tmok tm (S nx).
Proof. intros tm nx (A & B). split; auto. intros t H. specialize (B t H). lia. Qed.
Lemma tmok_add : forall tm nx p, tmok tm nx -> tmok ((nx, p) :: tm) (S nx).
Proof.
  intros tm nx p (A & B). split; cbn.
  - constructor; auto. intros H. apply B in H. lia.
  - intros t [<-|H]; [lia|]. apply B in H. lia.
Qed.
Lemma map_filter_in : forall (f : nat * bool -> bool) l t,
  In t (map fst (filter f l)) -> In t (map fst l).
Proof.
  intros f l t H. apply in_map_iff in H. destruct H as (y & <- & Hy). apply filter_In in Hy.
  apply in_map. tauto.
Qed.
Lemma tmok_filter : forall f tm nx, tmok tm nx -> tmok (filter f tm) nx.
Proof.
  intros f tm nx (A & B). split.
  - clear B. induction tm as [|y tm IH]; cbn in *; auto. inversion A; subst.
    destruct (f y); cbn; auto. constructor; auto. intros H. apply map_filter_in in H. auto.
  - intros t H. apply map_filter_in in H. auto.
Qed.
Lemma tmok_del : forall h tm nx, tmok tm nx -> tmok (del_timer h tm) nx.
Proof. intros [i|] tm nx H; cbn; auto. now apply tmok_filter. Qed.

(** ** The invariant *)

(** The frame that announces a transport acknowledge, and what is written
    before an alarm or an alarm acknowledge is passed on: the frame was taken
    and acknowledged. *)
Definition just_taken (p : bool) (n : Z) (r : list obs) : Prop :=
  exists b f r', r = AFree b :: ATx p f b true :: AAlloc b :: ATaken p n :: r' /\ f_cont f = FTack.

Definition good (cap : nat) (o : obs) (r : list obs) : Prop :=
  match o with
  | AReTx p f => (exists n, pending p r = Some (f, n) /\ n < agreed r) /\ exists t r', r = AFire p t :: r'
  | AAbort (WTimeout p) =>
      exists t r' f, r = AFire p t :: r' /\ pending p r = Some (f, agreed r)
  | ATx p f _ _ | ALost p f =>
      (f_tack f = true -> waiting p r = false /\ f_send f = canon (length (sent p r))) /\
      f_ack f = before (length (taken p r)) /\
      (forall a n, f_cont f = FNotify a n ->
         (exists w, accepted p r = handed p r ++ a :: w) /\
         (clean p r = true -> notified p r = confirmed p r))
  | ABusy p c => waiting p r = true /\
      (forall a n, c = FNotify a n -> exists w, accepted p r = handed p r ++ a :: w)
  | ACrash => exists p c, In (ABusy p c) r
  | ATack p n => waiting p r = true /\ n = canon (tacks p r)
  | ATaken p n => n = canon (length (taken p r))
  | AInd p d usi len pos b =>
      owed p r = Nothing /\
      exists m t n k, In (AIn p m) r /\ g_buf m = b /\ frame_wf m /\
        parse p m = Ok (PData t n k (BNotify d usi len pos)) /\ just_taken p n r
  | ACnf p c =>
      exists m t n k, In (AIn p m) r /\ parse p m = Ok (PData t n k (BAck c)) /\ just_taken p n r
  | AAckCnf p => owed p r = Given
  | AAccept p _ => length (accepted p r) < length (handed p r) + cap
  | _ => True
  end.

Definition rtab (x : px) : list nat := match rta x with Some (b, _) => [b] | None => [] end.
Definition heldl (s : st) (rl : bool -> list rmsg) (h : list nat) : list nat :=
  rtab (s_px s true) ++ rtab (s_px s false) ++ map g_buf (rl true) ++ map g_buf (rl false) ++ h.

Record live (cap : nat) (h : list nat) (s : st) (rl : bool -> list rmsg) (sl : bool -> list alarm)
  : Prop := mkLive {
  v_crash : s_crash s = false;
  v_live : s_live s = true;
  v_okp : forall p, okp cap p (s_px s p) (s_tr s) (rl p) (sl p);
  v_ret : s_retries s = agreed (s_tr s);
  v_buf : bufs (s_tr s) (s_next s) (heldl s rl h);
  v_tm : tmok (s_timers s) (s_next s);
  v_good : always (good cap) (s_tr s) }.

Record dead (cap : nat) (h : list nat) (s : st) : Prop := mkDead {
  d_crash : s_crash s = false;
  d_live : s_live s = false;
  d_px : forall p, s_px s p = px0;
  d_en : s_enable s = false;
  d_buf : bufs (s_tr s) (s_next s) h;
  d_tm : tmok (s_timers s) (s_next s);
  d_good : always (good cap) (s_tr s) }.

Record crashed (cap : nat) (s : st) : Prop := mkCrashed {
  c_crash : s_crash s = true;
  c_top : exists r, s_tr s = ACrash :: r;
  c_good : always (good cap) (s_tr s) }.

Lemma setp_same : forall p x s, s_px (setp p x s) p = x.
Proof. intros. cbn. now rewrite same_refl. Qed.
Lemma setp_other : forall p q x s, q <> p -> s_px (setp p x s) q = s_px s q.
Proof. intros. cbn. now rewrite same_ne. Qed.

Lemma heldl_setp : forall p x s rl h, rtab x = rtab (s_px s p) ->
  heldl (setp p x s) rl h = heldl s rl h.
Proof. intros [] x s rl h E; unfold heldl; cbn; rewrite E; reflexivity. Qed.

Section Inv.
Variable cap : nat.
Hypothesis cap_pos : 0 < cap.
Variable max_payload : nat.
Variable ora : nat -> answer.

Lemma live_setp : forall h s rl sl p x, live cap h s rl sl -> rtab x = rtab (s_px s p) ->
  okp cap p x (s_tr s) (rl p) (sl p) -> live cap h (setp p x s) rl sl.
Proof.
  intros h s rl sl p x L E K. destruct L. constructor; auto.
  - intros q. destruct (bool_dec q p) as [->|N]; [rewrite setp_same; auto|rewrite setp_other by auto; cbn; auto].
  - rewrite heldl_setp by auto. auto.
Qed.

Lemma live_alike : forall h s rl sl p x, live cap h s rl sl -> alike (s_px s p) x -> mr x <> RClosed ->
  live cap h (setp p x s) rl sl.
Proof.
  intros h s rl sl p x L A M. apply live_setp; auto.
  - unfold rtab. now replace (rta x) with (rta (s_px s p)) by (symmetry; apply A).
  - eapply okp_alike; eauto. apply L.
Qed.

Lemma live_emit : forall h s rl sl o, live cap h s rl sl -> good cap o (s_tr s) ->
  (forall p, neutral p o) -> nobuf o -> live cap h (emit o s) rl sl.
Proof.
  intros h s rl sl o L G N B. destruct L. constructor; cbn; auto.
  - intros p. apply okp_neutral; auto.
  - rewrite v_ret0. symmetry. apply (@neutral_funs true o (s_tr s) (N true)).
  - apply bufs_other; auto.
Qed.

Lemma live_free : forall h s rl sl b h', live cap h s rl sl -> Permutation h (b :: h') ->
  live cap h' (emit (AFree b) s) rl sl.
Proof.
  intros h s rl sl b h' L P. destruct L. constructor; cbn; auto.
  - intros p. apply okp_neutral; cbn; auto.
  - eapply bufs_free; [exact v_buf0|]. unfold heldl; cbn [s_px emit]. rewrite P.
    rewrite !app_assoc. symmetry. apply Permutation_middle.
Qed.

Lemma dead_free : forall h s b h', dead cap h s -> Permutation h (b :: h') ->
  dead cap h' (emit (AFree b) s).
Proof.
  intros h s b h' D P. destruct D. constructor; cbn; auto. eapply bufs_free; eauto.
Qed.

Lemma live_perm : forall h h' s rl sl, live cap h s rl sl -> Permutation h h' -> live cap h' s rl sl.
Proof.
  intros h h' s rl sl L P. destruct L. constructor; auto. eapply bufs_perm; eauto.
  unfold heldl. now rewrite P.
Qed.

(** Sending without transport acknowledge. *)
Lemma send_plain : forall h s rl sl p f, live cap h s rl sl -> f_tack f = false ->
  notif (f_cont f) = [] -> f_ack f = before (length (taken p (s_tr s))) ->
  live cap h (snd (a_data_req ora p f s)) rl sl.
Proof.
  intros h s rl sl p f L T C K. unfold a_data_req.
  assert (G : forall r, taken p r = taken p (s_tr s) -> (f_tack f = true -> waiting p r = false /\ f_send f = canon (length (sent p r))) /\
      f_ack f = before (length (taken p r)) /\
      (forall a n, f_cont f = FNotify a n -> (exists w, accepted p r = handed p r ++ a :: w) /\
         (clean p r = true -> notified p r = confirmed p r))).
  { intros r Hr. rewrite Hr. split; [congruence|]. split; [auto|]. intros a n X. rewrite X in C. discriminate. }
  destruct (o_alloc (ora (s_next s))); cbn [snd].
  - rewrite T. destruct L. constructor; cbn; auto.
    + intros q. repeat apply okp_neutral; cbn; auto.
    + eapply bufs_free; [apply bufs_other; [exact Logic.I|]; apply bufs_alloc; exact v_buf0|].
      apply Permutation_refl.
    + now apply tmok_next.
  - destruct L. constructor; cbn; auto.
    + intros q. apply okp_neutral; cbn; auto.
    + apply bufs_other; [exact Logic.I|]. now apply bufs_next.
    + now apply tmok_next.
Qed.
End Inv.
