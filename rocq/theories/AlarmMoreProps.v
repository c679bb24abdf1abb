(** Further properties of alarms: interval of repetitions (C39), origin of
    transport acknowledges (C60), alarm sequence numbers (C79). *)
From Coq Require Import List ZArith Arith Bool Lia.
From Verif Require Import Base BlockModel BlockReadLemmas AlarmModel AlarmSpec AlarmLemmas AlarmInv
  AlarmParse AlarmProps AlarmMore.
Import ListNotations.
Set Implicit Arguments.
Open Scope nat_scope.

Lemma inv_tidy : forall cap h s, inv cap h s -> s_crash s = false -> tidy s.
Proof.
  intros cap h s [(rl & sl & L)|[D|C]] E.
  - left. apply L.
  - right. split; apply D.
  - rewrite (c_crash C) in E. discriminate.
Qed.

Lemma run_more : forall cap maxp ora es s, 0 < cap -> inv cap [] s -> Forall input_ok es -> N None s ->
  N None (run cap maxp ora es s).
Proof.
  intros cap maxp ora es. induction es as [|e es IH]; intros s Hc H F M; cbn; auto. inversion F; subst.
  apply IH; auto; [now apply step_inv|]. apply N_step; auto.
  - eapply inv_tidy; eauto.
  - intros E E'. assert (X : inv cap [] (apmr_periodic cap ora s)); [|eapply inv_tidy; eauto].
    assert (Y : (exists rl sl, live cap [] s rl sl) \/ dead cap [] s).
    { destruct H as [L|[D|C]]; auto. rewrite (c_crash C) in E. discriminate. }
    apply apmr_inv with (ora := ora) in Y; auto. destruct Y; [left|right; left]; auto.
Qed.

Lemma hist_good2 : forall cap maxp ora es, 0 < cap -> Forall input_ok es ->
  always good2 (hist cap maxp ora es).
Proof.
  intros. unfold hist. eapply n_good. apply run_more; auto using inv_st0.
  split; cbn; auto; discriminate.
Qed.

(** ** C39: the interval *)

(** The timer of a frame runs for the agreed number of units of 100 ms. *)
Theorem C39_interval : forall cap maxp ora es p newer older t us, 0 < cap -> Forall input_ok es ->
  hist cap maxp ora es = newer ++ AArm p t us :: older -> us = (100000 * factor older)%Z.
Proof.
  intros cap maxp ora es p newer older t us Hc F E.
  exact (always_split _ (hist_good2 maxp ora Hc F) _ _ _ E).
Qed.

Example C39_interval_case : exists t r,
  hist 5 200 all_ok [XActivate 3 2 100; XEnable true; XAlarm true (ex_alarm 1); XPeriodic] = AArm true t 200000 :: r.
Proof. eexists _, _. vm_compute. reflexivity. Qed.

(** ** C60: transport acknowledges *)

(** A frame at [i] whose acknowledge number is [n]: a transport acknowledge
    without data, or a DATA frame. *)
Definition acknowledges (b : list Z) (i n : Z) : Prop :=
  (i + 12 <= Z.of_nat (length b) /\ get_bits (at8 b (i + 4)) 4 4 = 1 /\ n = at16 b (i + 8) /\
   ((get_bits (at8 b (i + 4)) 0 4 = 3 /\ at16 b (i + 10) = 0) \/ get_bits (at8 b (i + 4)) 0 4 = 1))%Z.

Lemma parse_acknowledges : forall p m n, frame_wf m ->
  parse p m = Ok (PAck n) \/ (exists t k y, parse p m = Ok (PData t k n y)) ->
  (u16 (g_idpos m + 2) + 12 <= Z.of_nat (length (g_bytes m)))%Z ->
  acknowledges (g_bytes m) (u16 (g_idpos m + 2)) n.
Proof.
  intros p m n (W1 & W2) H L. set (b := g_bytes m) in *. set (i := u16 (g_idpos m + 2)) in *.
  assert (Hi : (0 <= i)%Z) by apply u16_range.
  unfold parse in H. fold b in H. fold i in H.
  change (mkRd (Some b) (Z.of_nat (length b)) true POk i) with (rdr b i) in H.
  destruct (ex_fixed b W1 W2) as (X1 & _), (ex_u16 b W1 W2) as (X2 & _).
  rewrite X1 in H by lia. cbn [obind] in H. rewrite X2 in H by lia. cbn [obind] in H.
  cbn [fixed_at a_version a_type a_send a_ack a_tack] in H.
  replace (i + 10 + 2)%Z with (i + 12)%Z in H by lia.
  unfold acknowledges. split; auto.
  destruct (Z.eqb_spec (get_bits (at8 b (i + 4)) 4 4) 1) as [V|V].
  2:{ destruct H as [H|(t & k & y & H)]; discriminate. }
  destruct (Z.eqb_spec (get_bits (at8 b (i + 4)) 0 4) 3) as [T3|T3].
  - destruct (Z.eqb_spec (at16 b (i + 10)) 0) as [Z0|Z0].
    + destruct H as [H|(t & k & y & H)]; [|discriminate]. injection H as <-. auto.
    + destruct H as [H|(t & k & y & H)]; discriminate.
  - destruct (Z.eqb_spec (get_bits (at8 b (i + 4)) 0 4) 1) as [T1|T1].
    + destruct (parse_body p (at16 b (i + 10)) (rdr b (i + 12))) as [y0| |]; cbn in H.
      * destruct H as [H|(t & k & y & H)]; [discriminate|]. injection H as _ _ <- _. auto.
      * destruct H as [H|(t & k & y & H)]; discriminate.
      * destruct H as [H|(t & k & y & H)]; discriminate.
    + destruct (_ =? 4)%Z; [destruct (_ =? 4)%Z|]; destruct H as [H|(t & k & y & H)]; discriminate.
Qed.

(** A transport acknowledge that counts came in a frame of that priority; unless
    that frame ends within its first 12 bytes, it is a transport acknowledge
    without data or a DATA frame, and has this acknowledge number. *)
Theorem C60_origin_partial : forall cap maxp ora es p newer older n, 0 < cap -> Forall input_ok es ->
  hist cap maxp ora es = newer ++ ATack p n :: older ->
  exists m, In (AIn p m) older /\
    (frame_wf m -> (u16 (g_idpos m + 2) + 12 <= Z.of_nat (length (g_bytes m)))%Z ->
     acknowledges (g_bytes m) (u16 (g_idpos m + 2)) n).
Proof.
  intros cap maxp ora es p newer older n Hc F E.
  destruct (always_split _ (hist_good2 maxp ora Hc F) _ _ _ E) as (m & M & P).
  exists m. split; auto. intros W L. eapply parse_acknowledges; eauto.
Qed.

(** A frame that ends after its fifth byte can count as acknowledge of number 0. *)
Definition ex_short : list input :=
  [XActivate 3 1 100; XEnable true; XAlarm true (ex_alarm 1); XPeriodic;
   XFrame true (ex_ack true 65535 65535 [0; 0; 0; 0]%Z) 0; XPeriodic;
   XAlarm true (ex_alarm 1); XPeriodic; XFrame true [254; 1; 0; 0; 0; 0; 19]%Z 0; XPeriodic].
Definition ins (p : bool) (tr : list obs) : list rmsg :=
  flat_map (fun o => match o with AIn q m => if same q p then [m] else [] | _ => [] end) tr.
Lemma in_ins : forall p m tr, In (AIn p m) tr -> In m (ins p tr).
Proof.
  intros p m tr H. unfold ins. apply in_flat_map. exists (AIn p m). split; auto. rewrite eqb_reflx. now left.
Qed.
Lemma ex_short_ins : ins true (hist 5 200 all_ok ex_short) =
  [mkMsg 6 [254; 1; 0; 0; 0; 0; 19]%Z 0; mkMsg 2 (ex_ack true 65535 65535 [0; 0; 0; 0]%Z) 0].
Proof. vm_compute. reflexivity. Qed.
Lemma ex_short_tack : In (ATack true 0) (hist 5 200 all_ok ex_short).
Proof. vm_compute. found. Qed.
Theorem C60_origin_refuted : exists cap maxp ora es p n, 0 < cap /\ Forall input_ok es /\
  In (ATack p n) (hist cap maxp ora es) /\
  ~ exists m, In (AIn p m) (hist cap maxp ora es) /\ acknowledges (g_bytes m) (u16 (g_idpos m + 2)) n.
Proof.
  exists 5, 200, all_ok, ex_short, true, 0%Z.
  split; [lia|]. split; [repeat constructor; cbn; lia|]. split; [exact ex_short_tack|].
  intros (m & M & A). apply in_ins in M. rewrite ex_short_ins in M.
  destruct M as [<-|[<-|[]]]; destruct A as (A1 & _ & A3 & _); cbn [g_bytes g_idpos] in A1, A3.
  - revert A1. vm_compute. intros A1. now apply A1.
  - revert A3. vm_compute. discriminate.
Qed.

(** ** C79: alarm sequence numbers *)

(** An alarm has the number of alarms and alarm acknowledges that this
    connection sent or gave up on that priority before, modulo 2048. *)
Theorem C79_partial : forall cap maxp ora es p newer older f a n b ok, 0 < cap -> Forall input_ok es ->
  hist cap maxp ora es = newer ++ ATx p f b ok :: older -> f_cont f = FNotify a n ->
  n = (Z.of_nat (numbered p older) mod 2048)%Z.
Proof.
  intros cap maxp ora es p newer older f a n b ok Hc F E Ef.
  destruct (always_split _ (hist_good2 maxp ora Hc F) _ _ _ E) as (G & _). eauto.
Qed.

Lemma numbered_low : forall tr, always good2 tr -> numbered false tr = length (handed false tr).
Proof.
  induction tr as [|o t IH]; intros H; auto. destruct H as (H1 & H2). specialize (IH H2).
  destruct o; cbn [numbered handed]; auto; destruct p; cbn [same Bool.eqb]; rewrite ?app_nil_r, ?app_length; auto;
  rewrite IH; cbn in H1.
  - destruct (f_cont f); cbn; try lia. destruct H1 as (_ & H1). specialize (H1 _ _ eq_refl). discriminate.
  - destruct (f_cont f); cbn; try lia. destruct H1 as (_ & H1). specialize (H1 _ _ eq_refl). discriminate.
  - destruct c; cbn; try lia. specialize (H1 _ _ eq_refl). discriminate.
Qed.

(** The low priority: 0, 1, ..., 2047, 0, ... over the alarms alone. *)
Theorem C79_low : forall cap maxp ora es newer older f a n b ok, 0 < cap -> Forall input_ok es ->
  hist cap maxp ora es = newer ++ ATx false f b ok :: older -> f_cont f = FNotify a n ->
  n = (Z.of_nat (length (handed false older)) mod 2048)%Z.
Proof.
  intros cap maxp ora es newer older f a n b ok Hc F E Ef.
  rewrite (@C79_partial cap maxp ora es false newer older f a n b ok Hc F E Ef).
  rewrite numbered_low; auto.
  pose proof (hist_good2 maxp ora Hc F) as G. rewrite E in G. clear - G.
  induction newer as [|o t IH]; cbn in G; tauto.
Qed.

(** The high priority: the acknowledge of an alarm of the controller takes a
    number, so two successive alarms have the numbers 0 and 2. *)
Definition ex_gap : list input :=
  [XActivate 3 1 100; XEnable true; XAlarm true (ex_alarm 1); XPeriodic;
   XFrame true (ex_ack true 65535 65535 [0; 0; 0; 0]%Z) 0; XPeriodic;
   XFrame true (ex_notif true 0 [5]%Z) 0; XPeriodic;
   XAck (mkAdata 0 0 0 0 0 0 0 0 0 0 0) (mkPnio 0 0 0 0); XFrame true (ex_tack 0) 0; XPeriodic;
   XAlarm true (ex_alarm 2); XPeriodic].
Theorem C79_refuted : exists cap maxp ora es newer older f b ok a n, 0 < cap /\ Forall input_ok es /\
  hist cap maxp ora es = newer ++ ATx true f b ok :: older /\ f_cont f = FNotify a n /\
  length (handed true older) = 1 /\ n = 2%Z.
Proof.
  exists 5, 200, all_ok, ex_gap. pose (h := hist 5 200 all_ok ex_gap).
  exists (firstn 1 h), (skipn 2 h), (mkFrame (FNotify (ex_alarm 2) 2) true 1 0), 9, true, (ex_alarm 2), 2%Z.
  split; [lia|]. split; [repeat constructor; cbn; lia|]. split; [vm_compute; reflexivity|]. split; [reflexivity|]. split; [vm_compute; reflexivity|reflexivity].
Qed.

Example C79_case :
  numbered true (hist 5 200 all_ok ex_two) = 2 /\ length (handed true (hist 5 200 all_ok ex_two)) = 2.
Proof. split; vm_compute; reflexivity. Qed.

Print Assumptions C39_interval.
Print Assumptions C60_origin_partial.
Print Assumptions C60_origin_refuted.
Print Assumptions C79_partial.
Print Assumptions C79_low.
Print Assumptions C79_refuted.
