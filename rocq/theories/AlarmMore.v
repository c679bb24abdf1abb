(** A second invariant of the alarm model: repetition interval, alarm numbers,
    and where transport acknowledges come from. *)
From Coq Require Import List ZArith Arith Bool Lia.
From Verif Require Import Base BlockModel AlarmModel AlarmSpec AlarmLemmas.
Import ListNotations.
Set Implicit Arguments.
Open Scope nat_scope.

(** Agreed timeout factor, in units of 100 ms. *)
Fixpoint factor (tr : list obs) : Z :=
  match tr with
  | [] => 0%Z
  | AActivate _ f _ :: _ => f
  | _ :: t => factor t
  end.

(** How many alarms and alarm acknowledges of the device were sent or given up. *)
Definition alarm_pdu (c : content) : nat :=
  match c with FNotify _ _ | FAlAck _ _ => 1 | _ => 0 end.
Fixpoint numbered (p : bool) (tr : list obs) : nat :=
  match tr with
  | [] | AActivate _ _ _ :: _ => 0
  | ATx q f _ _ :: t | ALost q f :: t => (if same q p then alarm_pdu (f_cont f) else 0) + numbered p t
  | ABusy q c :: t => (if same q p then alarm_pdu c else 0) + numbered p t
  | _ :: t => numbered p t
  end.

Definition good2 (o : obs) (r : list obs) : Prop :=
  match o with
  | AArm p t us => us = (100000 * factor r)%Z
  | ATx p f _ _ | ALost p f =>
      (forall a n, f_cont f = FNotify a n -> n = (Z.of_nat (numbered p r) mod 2048)%Z) /\
      (forall d t, f_cont f = FAlAck d t -> p = true)
  | ABusy p c => forall d t, c = FAlAck d t -> p = true
  | ATack p n => exists m, In (AIn p m) r /\
      (parse p m = Ok (PAck n) \/ exists t k y, parse p m = Ok (PData t k n y))
  | _ => True
  end.

Definition plus1 (d : option bool) (p : bool) : nat :=
  match d with Some q => if same q p then 1 else 0 | None => 0 end.

Record N (d : option bool) (s : st) : Prop := mkN {
  n_fac : s_live s = true -> s_factor s = factor (s_tr s);
  n_num : s_live s = true -> forall p,
    alseq (s_px s p) = (Z.of_nat (numbered p (s_tr s) + plus1 d p) mod 2048)%Z;
  n_rq : forall p i m, q_items (rq (s_px s p)) i = Some m -> In (AIn p m) (s_tr s);
  n_good : always good2 (s_tr s) }.

(** Observations that do not matter here. *)
Definition dull (o : obs) : Prop :=
  match o with
  | AActivate _ _ _ | AArm _ _ _ | ATack _ _ => False
  | ATx _ f _ _ | ALost _ f => alarm_pdu (f_cont f) = 0
  | ABusy _ c => alarm_pdu c = 0
  | _ => True
  end.

Lemma N_emit : forall d o s, dull o -> N d s -> N d (emit o s).
Proof.
  intros d o s D [F A Q G]. split; cbn [emit s_live s_factor s_tr s_px].
  - intros L. rewrite (F L). destruct o; cbn in D; try tauto; reflexivity.
  - intros L p. rewrite (A L). f_equal. f_equal. f_equal. destruct o; cbn in D |- *; try tauto; rewrite ?D; now destruct (same _ _).
  - intros p i m H. right. eauto.
  - split; auto. destruct o; cbn in D |- *; auto; try tauto; [split|split|]; intros a n E; rewrite E in D; discriminate.
Qed.

Lemma N_setp : forall d p x s, alseq x = alseq (s_px s p) ->
  (forall i m, q_items (rq x) i = Some m -> exists j, q_items (rq (s_px s p)) j = Some m) -> N d s -> N d (setp p x s).
Proof.
  intros d p x s E1 E2 [F A Q G]. split; cbn [setp s_live s_factor s_tr s_px]; auto.
  - intros L q. destruct (Bool.eqb q p) eqn:E; auto. apply eqb_prop in E. subst q. now rewrite E1, A.
  - intros q i m. destruct (Bool.eqb q p) eqn:E; [apply eqb_prop in E; subst q|eauto].
    intros H. destruct (E2 _ _ H) as (j & J). eauto.
Qed.
Lemma N_same : forall d s s', s_live s' = s_live s -> s_factor s' = s_factor s -> s_px s' = s_px s ->
  s_tr s' = s_tr s -> N d s -> N d s'.
Proof. intros d s s' E1 E2 E3 E4 [F A Q G]. split; rewrite ?E1, ?E2, ?E3, ?E4; auto. Qed.
Lemma N_crash : forall d s, N d s -> N d (crash s).
Proof.
  intros d s [F A Q G]. split; cbn [crash s_live s_factor s_tr s_px]; auto.
  - intros p i m H. right. eauto.
  - split; auto. exact Logic.I.
Qed.

Section More.
Variable cap maxp : nat.
Variable ora : nat -> answer.

Ltac keep := apply N_setp; [reflexivity|intros; eauto|].
Ltac same := eapply N_same; cycle 4; [eassumption|reflexivity..].

Lemma N_free_rta : forall d p s, N d s -> N d (free_rta p s).
Proof. intros d p s H. unfold free_rta. destruct (rta _) as [[b f]|]; auto. apply N_emit; [exact Logic.I|]. now keep. Qed.

Lemma N_a_data_req : forall d p f s, alarm_pdu (f_cont f) = 0 -> N d s -> N d (snd (a_data_req ora p f s)).
Proof.
  intros d p f s D H. unfold a_data_req. destruct (o_alloc _); cbn [snd].
  - set (s1 := emit (ATx p f _ _) _).
    assert (H1 : N d s1). { apply N_emit; [exact D|]. apply N_emit; [exact Logic.I|]. same. }
    clearbody s1. destruct (f_tack f); [destruct (rta _)|].
    + now apply N_emit.
    + now keep.
    + now apply N_emit.
  - apply N_emit; [exact D|]. same.
Qed.

(** Sending the alarm or alarm acknowledge whose number was just drawn. *)
Lemma N_sent : forall p o s, (exists f b ok, (o = ATx p f b ok \/ o = ALost p f) /\ alarm_pdu (f_cont f) = 1 /\
    (forall a n, f_cont f = FNotify a n -> n = (Z.of_nat (numbered p (s_tr s)) mod 2048)%Z) /\
    (forall d t, f_cont f = FAlAck d t -> p = true)) \/
    (exists c, o = ABusy p c /\ alarm_pdu c = 1 /\ forall d t, c = FAlAck d t -> p = true) ->
  N (Some p) s -> N None (emit o s).
Proof.
  intros p o s O [F A Q G]. split; cbn [emit s_live s_factor s_tr s_px].
  - intros L. rewrite (F L). destruct O as [(f & b & ok & [->| ->] & _)|(c & -> & _)]; reflexivity.
  - intros L q. rewrite (A L). f_equal. f_equal. cbn [plus1].
    destruct O as [(f & b & ok & [->| ->] & E & _)|(c & -> & E & _)]; cbn [numbered]; rewrite E; destruct (same p q); lia.
  - intros q i m H. right. eauto.
  - split; auto. destruct O as [(f & b & ok & [->| ->] & _ & X)|(c & -> & _ & X)]; cbn; auto.
Qed.

Lemma N_a_data_req1 : forall p f s, alarm_pdu (f_cont f) = 1 ->
  (forall a n, f_cont f = FNotify a n -> n = (Z.of_nat (numbered p (s_tr s)) mod 2048)%Z) ->
  (forall d t, f_cont f = FAlAck d t -> p = true) ->
  N (Some p) s -> N None (snd (a_data_req ora p f s)).
Proof.
  intros p f s D X X' H. unfold a_data_req. destruct (o_alloc _); cbn [snd].
  - set (s1 := emit (ATx p f _ _) _).
    assert (H1 : N None s1).
    { eapply N_sent; [left; eexists _, _, _; split; [left; reflexivity|]; split; [exact D|split; [exact X|exact X']]|].
      apply N_emit; [exact Logic.I|]. same. }
    clearbody s1. destruct (f_tack f); [destruct (rta _)|].
    + now apply N_emit.
    + now keep.
    + now apply N_emit.
  - eapply N_sent; [left; eexists _, 0, true; split; [right; reflexivity|]; split; [exact D|split; [exact X|exact X']]|]. same.
Qed.

Lemma N_fold : forall d l s, N d s -> N d (fold_left (fun s m => emit (AFree (g_buf m)) s) l s).
Proof. intros d l. induction l as [|m l IH]; intros s H; cbn; auto. apply IH. now apply N_emit. Qed.

Lemma N_close_px : forall d p s, N d s -> N d (close_px cap p s).
Proof.
  intros d p s H. unfold close_px.
  set (s1 := match ms (s_px s p) with SClosed => s | _ => _ end).
  assert (H1 : N d s1) by (unfold s1; destruct (ms _); auto; same).
  clearbody s1. apply (N_free_rta p) in H1.
  destruct (mr (s_px s p)); auto; apply N_fold; auto.
Qed.

Lemma N_close : forall d w s, N d s -> N None (close cap ora w s).
Proof.
  intros d w s H. unfold close.
  set (s1 := emit (AAbort w) s). assert (H1 : N d s1) by now apply N_emit.
  set (s2 := match ms (s_px s1 false) with SClosed => s1 | _ => _ end).
  assert (H2 : N d s2) by (unfold s2; destruct (ms _); auto; now apply N_a_data_req).
  clearbody s2. apply (N_close_px false) in H2. apply (N_close_px true) in H2. destruct H2 as [_ _ Q G].
  split; cbn [s_live s_px s_tr]; try discriminate; auto.
Qed.
Lemma N_error_ind : forall w s, N None s -> N None (error_ind cap ora w s).
Proof. intros w s H. unfold error_ind. destruct (s_live s); [eapply N_close; eauto|now apply N_crash]. Qed.
Lemma N_cnf_pos : forall d p s, N d s -> N d (cnf_pos p s).
Proof. intros d p s H. unfold cnf_pos. destruct (lr _); auto. keep. now apply N_emit. Qed.
Lemma N_cnf_neg : forall s, N None s -> N None (cnf_neg cap ora s).
Proof. intros s H. unfold cnf_neg. apply (N_error_ind WBusy) in H. destruct (s_live _); auto. now apply N_crash. Qed.

Lemma N_arm : forall d p t s, s_live s = true -> N d s -> N d (emit (AArm p t (100 * 1000 * s_factor s)%Z)
  (settimers ((t, p) :: s_timers s) (setp p (with_handle (Some t) (s_px s p)) s))).
Proof.
  intros d p t s L H. set (s1 := settimers _ _).
  assert (H1 : N d s1). { apply N_same with (s := setp p (with_handle (Some t) (s_px s p)) s); try reflexivity. now keep. }
  assert (E : s_factor s = factor (s_tr s1)) by (rewrite <- (n_fac H1 L); reflexivity).
  destruct H1 as [F A Q G]. split; cbn [emit s_live s_factor s_tr s_px]; auto.
  - intros q i m X. right. eauto.
  - split; auto. cbn [good2]. rewrite E. lia.
Qed.

Lemma a_data_req_live : forall p f s, s_live (snd (a_data_req ora p f s)) = s_live s.
Proof.
  intros. unfold a_data_req. destruct (o_alloc _); cbn [snd]; auto. destruct (f_tack f); auto.
  now destruct (rta _).
Qed.

Lemma N_apms_req : forall p c s, s_live s = true -> alarm_pdu c = 1 ->
  (forall a n, c = FNotify a n -> n = (Z.of_nat (numbered p (s_tr s)) mod 2048)%Z) ->
  (forall d t, c = FAlAck d t -> p = true) ->
  N (Some p) s -> N None (snd (apms_req cap ora p c s)).
Proof.
  intros p c s L D X X' H. unfold apms_req.
  assert (B : N None (cnf_neg cap ora (emit (ABusy p c) s))).
  { apply N_cnf_neg. eapply N_sent; [right; eauto|auto]. }
  destruct (ms (s_px s p)); cbn [snd]; auto.
  set (s1 := setp p _ s). set (f := mkFrame c true _ _).
  assert (H1 : N (Some p) s1) by (unfold s1; now keep).
  pose proof (@N_a_data_req1 p f s1 D X X' H1) as H2.
  pose proof (a_data_req_live p f s1) as L2. change (s_live s1) with (s_live s) in L2. rewrite L in L2.
  destruct (a_data_req ora p f s1) as (ok & s2). cbn [snd] in H2, L2. clearbody s1.
  set (s3 := bump _). assert (H3 : N None s3).
  { apply N_same with (s := setp p (with_ms SWtack (s_px s2 p)) s2); try reflexivity. now keep. }
  assert (L3 : s_live s3 = true) by exact L2. clearbody s3.
  destruct (o_sched _); cbn [snd]; [now apply N_arm|now apply N_emit].
Qed.

Lemma N_timeout : forall t p s, s_live s = true \/ s_px s p = px0 -> N None s -> N None (timeout cap ora t p s).
Proof.
  intros t p s L H. unfold timeout.
  set (s1 := setp p _ _).
  assert (H1 : N None s1). { unfold s1. keep. apply N_emit; [exact Logic.I|]. same. }
  assert (L1 : s_live s1 = true \/ ms (s_px s1 p) = SClosed).
  { destruct L as [L|L]; [left; exact L|right]. unfold s1. rewrite setp_same. cbn. now rewrite L. }
  clearbody s1. destruct (ms (s_px s1 p)) eqn:E; try (now apply N_free_rta).
  destruct L1 as [L1|L1]; [|discriminate].
  destruct (rta (s_px s1 p)) as [[b f]|] eqn:R; auto.
  destruct (resend (s_px s1 p)).
  - apply N_error_ind. now keep.
  - set (s2 := bump _). assert (H2 : N None s2).
    { apply N_same with (s := emit (AReTx p f) (setp p (with_resend n (s_px s1 p)) s1)); try reflexivity. apply N_emit; [exact Logic.I|]. now keep. }
    assert (L2 : s_live s2 = true) by exact L1. clearbody s2.
    destruct (o_sched _); cbn [snd]; [now apply N_arm|now apply N_emit].
Qed.

Lemma N_tack_ind : forall p n m s, In (AIn p m) (s_tr s) ->
  (parse p m = Ok (PAck n) \/ exists t k y, parse p m = Ok (PData t k n y)) ->
  N None s -> N None (tack_ind p n s).
Proof.
  intros p n m s M O H. unfold tack_ind. destruct (ms _); auto. destruct (Z.eqb _ _); auto.
  keep. apply N_cnf_pos. apply N_free_rta.
  set (s1 := setp p _ s). assert (H1 : N None s1) by (unfold s1; now keep).
  assert (M1 : In (AIn p m) (s_tr s1)) by exact M. clearbody s1.
  destruct H1 as [F A Q G]. split; cbn [emit s_live s_factor s_tr s_px]; auto.
  - intros q i m' X. right. eauto.
  - split; auto. cbn [good2]. eauto.
Qed.

Lemma N_alpmi : forall p t s, N None s -> N None (alpmi_data p t s).
Proof. intros. unfold alpmi_data. destruct (li _); auto. apply N_emit; [exact Logic.I|]. now keep. Qed.
Lemma N_alpmr : forall p d usi len pos b s, N None s -> N None (snd (alpmr_data cap ora p d usi len pos b s)).
Proof.
  intros. unfold alpmr_data. destruct (lr _); cbn [snd]; auto; try (now apply N_error_ind).
  apply N_emit; [exact Logic.I|]. now keep.
Qed.

Lemma N_data_ind : forall p m t k n y b s, In (AIn p m) (s_tr s) -> parse p m = Ok (PData t k n y) ->
  N None s -> N None (snd (data_ind cap ora p t k n y b s)).
Proof.
  intros p m t k n y b s M P H. unfold data_ind.
  assert (T : forall s, In (AIn p m) (s_tr s) -> N None s -> N None (tack_ind p n s)).
  { intros s0 M0 H0. eapply N_tack_ind; eauto. }
  destruct (mr _); cbn [snd]; auto. destruct (negb t); cbn [snd]; auto.
  assert (K : forall s, N None s -> N None (snd (send_tack ora p s))) by (intros; now apply N_a_data_req).
  destruct (Z.eqb k (exp_seq (s_px s p))).
  - cbv zeta. match goal with |- context [send_tack ora p ?x] => set (s2 := x) end.
    assert (H2 : N None s2). { unfold s2. apply N_emit; [exact Logic.I|]. keep. now apply T. }
    clearbody s2. apply K in H2. destruct (send_tack ora p s2) as (ok & s3). cbn [snd] in H2.
    destruct y as [w|d usi len pos| |].
    + destruct ok; cbn [snd]; auto. keep. apply N_alpmi. now keep.
    + destruct ok; cbn [snd]; auto.
      assert (H4 : N None (setp p (with_mr RWcnf (s_px s3 p)) s3)) by now keep.
      apply (@N_alpmr p d usi len pos b) in H4. destruct (alpmr_data _ _ _ _ _ _ _ _ _) as (ok & s4).
      cbn [snd] in H4. destruct ok; cbn [snd]; auto. now keep.
    + destruct ok; cbn [snd]; auto. now keep.
    + cbn [snd]. now apply N_error_ind.
  - destruct (Z.eqb k (exp_seq_o (s_px s p))); cbn [snd]; auto. now apply N_a_data_req.
Qed.

Lemma N_handle_msg : forall p m s, In (AIn p m) (s_tr s) -> N None s -> N None (snd (handle_msg cap ora p m s)).
Proof.
  intros p m s M H. unfold handle_msg. destruct (parse p m) as [u| |] eqn:P; cbn [snd]; try (now apply N_crash).
  assert (X : N None (snd (handle_pdu cap ora p u (g_buf m) s))).
  { destruct u; cbn [handle_pdu snd]; auto.
    - eapply N_tack_ind; eauto.
    - eapply N_data_ind; eauto.
    - now apply N_error_ind. }
  destruct (handle_pdu _ _ _ _ _ _) as (ok & s1). cbn [snd] in *. now apply N_emit.
Qed.

Lemma fetch_items : forall (A : Type) q (o : option A) q', ring_fetch cap q = (o, q') ->
  (forall x, o = Some x -> exists i, q_items q i = Some x) /\
  (forall i x, q_items q' i = Some x -> exists j, q_items q j = Some x).
Proof.
  intros A q o q' E. unfold ring_fetch in E. destruct (negb _); [injection E as <- <-; split; eauto; discriminate|].
  destruct (_ =? 0); injection E as <- <-; split; eauto; try discriminate.
  intros i x. cbn. unfold upd. destruct (_ =? _); [discriminate|eauto].
Qed.

Lemma N_loop : forall fuel p s, N None s -> N None (snd (apmr_loop cap ora fuel p s)).
Proof.
  induction fuel as [|n IH]; intros p s H; cbn [apmr_loop snd]; auto.
  destruct (mr _); cbn [snd]; auto;
  (destruct (ring_fetch cap (rq (s_px s p))) as (o & q) eqn:E;
   destruct (fetch_items _ E) as (E1 & E2);
   destruct o as [m|]; cbn [snd]; auto;
   destruct (E1 _ eq_refl) as (i & I); pose proof (n_rq H _ _ I) as M;
   assert (H1 : N None (setp p (with_rq q (s_px s p)) s)) by (apply N_setp; auto);
   apply (@N_handle_msg p m) in H1; [|exact M];
   destruct (handle_msg _ _ _ _ _) as (ok & s1); cbn [snd] in H1;
   destruct (s_crash s1); cbn [snd]; auto; destruct ok; cbn [snd]; auto).
Qed.

Lemma N_draw : forall p x s, s_live s = true -> alseq x = alseq (s_px s p) -> rq x = rq (s_px s p) -> N None s ->
  N (Some p) (setp p (with_alseq ((alseq x + 1) mod 2048)%Z x) s) /\ alseq x = (Z.of_nat (numbered p (s_tr s)) mod 2048)%Z.
Proof.
  intros p x s L E1 E2 [F A Q G]. split.
  - split; cbn [setp s_live s_factor s_tr s_px]; auto.
    + intros _ q. destruct (Bool.eqb q p) eqn:E.
      * apply eqb_prop in E. subst q. cbn [alseq with_alseq plus1]. rewrite E1, (A L), eqb_reflx. cbn [plus1].
        rewrite Nat.add_0_r, Nat2Z.inj_add. rewrite Zplus_mod_idemp_l. reflexivity.
      * rewrite (A L). cbn [plus1]. destruct (same p q) eqn:E'; auto. apply eqb_prop in E'. subst. now rewrite eqb_reflx in E.
    + intros q i m. destruct (Bool.eqb q p) eqn:E; [apply eqb_prop in E; subst q|eauto].
      cbn [rq with_alseq]. rewrite E2. eauto.
  - rewrite E1, (A L). cbn. now rewrite Nat.add_0_r.
Qed.

Lemma N_send_internal : forall p a x s, s_live s = true -> alseq x = alseq (s_px s p) -> rq x = rq (s_px s p) ->
  N None s -> N None (send_internal cap ora p a x s).
Proof.
  intros p a x s L E1 E2 H. unfold send_internal. destruct (N_draw p x L E1 E2 H) as (H1 & E).
  set (s1 := setp p _ s) in *. assert (L1 : s_live s1 = true) by exact L.
  assert (X : N None (snd (apms_req cap ora p (FNotify a (alseq x)) s1))).
  { apply N_apms_req; auto; [|discriminate]. intros a0 n0 E0. injection E0 as <- <-. exact E. }
  destruct (apms_req _ _ _ _ _) as (ok & s2). cbn [snd] in X. destruct ok; auto. now keep.
Qed.

Lemma N_try_send : forall p s, s_live s = true -> N None s -> N None (snd (try_send cap ora p s)).
Proof.
  intros p s L H. unfold try_send. destruct (li _); cbn [snd]; auto.
  destruct (ring_fetch _ _) as (o & q). destruct o; cbn [snd]; auto. now apply N_send_internal.
Qed.
Lemma try_send_none : forall p s s', try_send cap ora p s = (false, s') -> s' = s.
Proof.
  intros p s s' E. unfold try_send in E. destruct (li _); try congruence.
  destruct (ring_fetch _ _) as (o & q). destruct o; congruence.
Qed.

Lemma N_almpi : forall s, (s_enable s = true -> s_live s = true) -> N None s -> N None (almpi_periodic cap ora s).
Proof.
  intros s L H. unfold almpi_periodic. destruct (s_enable s); auto. specialize (L eq_refl).
  pose proof (N_try_send true L H) as H1. destruct (try_send cap ora true s) as (b & s1) eqn:E. cbn [snd] in H1.
  destruct b; auto. apply try_send_none in E. subst s1. now apply N_try_send.
Qed.

(** The connection is in use if alarms are enabled, and so are its machines. *)
Definition tidy (s : st) : Prop := s_live s = true \/ (s_enable s = false /\ forall p, s_px s p = px0).

Lemma N_activate : forall r f m s, N None s -> N None (activate r f m s).
Proof.
  intros r f m s [F A Q G]. split; cbn [activate s_live s_factor s_tr s_px]; auto.
  - discriminate.
  - split; auto. exact Logic.I.
Qed.

Lemma N_step : forall e s, (s_crash s = false -> tidy s) ->
  (s_crash s = false -> s_crash (apmr_periodic cap ora s) = false -> tidy (apmr_periodic cap ora s)) ->
  N None s -> N None (step cap maxp ora e s).
Proof.
  intros e s T T' H. unfold step. destruct (s_crash s); auto. specialize (T eq_refl). specialize (T' eq_refl). destruct e.
  - destruct (s_live s); auto. now apply N_activate.
  - destruct (s_live s) eqn:L; auto. eapply N_same with (s := s); auto.
  - destruct (s_live s); auto. eapply N_close; eauto.
  - destruct (s_live s); [|now apply N_emit]. unfold send_alarm. destruct (_ || _); [now apply N_emit|].
    destruct (ring_post _ _ _) as (ok & q). destruct ok; apply N_emit; try exact Logic.I; auto. now keep.
  - destruct (s_live s) eqn:L; [|now apply N_emit]. unfold alarm_ack.
    destruct (lr _); try (now apply N_emit).
    destruct (N_draw true (s_px s true) L eq_refl eq_refl H) as (H1 & _).
    set (s1 := setp true _ s) in *. assert (L1 : s_live s1 = true) by exact L.
    assert (X : N None (snd (apms_req cap ora true (FAlAck d t) s1))).
    { apply N_apms_req; auto. discriminate. }
    destruct (apms_req _ _ _ _ _) as (ok & s2). cbn [snd] in X. destruct (s_crash s2); auto.
    apply N_emit; [exact Logic.I|]. now keep.
  - unfold frame_in. set (b := s_next s). set (s1 := bump s). assert (H1 : N None s1) by same.
    destruct (s_live s1); [|now apply N_emit].
    destruct (ring_post cap (mkMsg b bytes idpos) (rq (s_px s1 p))) as (ok & q) eqn:E.
    destruct ok; [|now apply N_emit].
    destruct H1 as [F A Q G]. split; cbn [emit setp s_live s_factor s_tr s_px]; auto.
    + intros L r. destruct (Bool.eqb r p) eqn:Er; [apply eqb_prop in Er; subst r|]; apply (A L).
    + intros r i m. destruct (Bool.eqb r p) eqn:Er; [apply eqb_prop in Er; subst r|right; eauto].
      cbn [rq with_rq]. unfold ring_post in E. destruct (negb _); [discriminate|]. destruct (cap <=? _); [discriminate|].
      injection E as <-. cbn [q_items]. unfold upd. destruct (_ =? _).
      * intros X. injection X as <-. now left.
      * right. eauto.
    + split; auto. exact Logic.I.
  - unfold periodic. destruct (s_live s) eqn:L; auto.
    assert (X : N None (apmr_periodic cap ora s)).
    { unfold apmr_periodic. pose proof (N_loop (q_count (rq (s_px s false))) false H) as X.
      destruct (apmr_loop _ _ _ _ _) as (ok & s1). cbn [snd] in X. destruct ok; auto. now apply N_loop. }
    destruct (s_crash _); auto. apply N_almpi; auto.
    destruct (T' eq_refl) as [A|(A & _)]; auto. congruence.
  - destruct (find _ _) as [[u p]|]; auto. apply N_timeout; auto. destruct T as [A|(_ & A)]; auto.
Qed.
End More.
