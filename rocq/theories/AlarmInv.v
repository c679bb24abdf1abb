(** Every operation of the alarm machines keeps the invariant. *)

From Coq Require Import List ZArith Arith Bool Lia Permutation.
From Verif Require Import Base BlockModel BlockReadLemmas AlarmModel AlarmSpec AlarmRing AlarmLemmas.
Import ListNotations.
Set Implicit Arguments.
Open Scope nat_scope.

Section Inv.
Variable cap : nat.
Hypothesis cap_pos : 0 < cap.
Variable max_payload : nat.
Variable ora : nat -> answer.

(** ** Histories only grow *)

Definition grows (s s' : st) : Prop := exists os, s_tr s' = os ++ s_tr s.
Lemma grows_refl : forall s, grows s s.
Proof. intros s. now exists []. Qed.
Lemma grows_trans : forall a b c, grows a b -> grows b c -> grows a c.
Proof. intros a b c (x & X) (y & Y). exists (y ++ x). now rewrite Y, X, app_assoc. Qed.
Lemma grows_emit : forall o s s', grows s s' -> grows s (emit o s').
Proof. intros o s s' (x & X). exists (o :: x). cbn. now rewrite X. Qed.
Lemma grows_tr : forall s s' s'', grows s s' -> s_tr s'' = s_tr s' -> grows s s''.
Proof. intros s s' s'' (x & X) E. exists x. congruence. Qed.
Lemma grows_in : forall s s' o, grows s s' -> In o (s_tr s) -> In o (s_tr s').
Proof. intros s s' o (x & X) H. rewrite X. apply in_or_app. auto. Qed.
Lemma grows_setp : forall p x s s', grows s s' -> grows s (setp p x s').
Proof. intros p x s s' G. eapply grows_tr; eauto. Qed.

Lemma grows_req : forall p f s, grows s (snd (a_data_req ora p f s)).
Proof.
  intros p f s. unfold a_data_req. destruct (o_alloc (ora (s_next s))); cbn [snd].
  - destruct (f_tack f); [destruct (rta _)|]; repeat first [apply grows_emit|apply grows_setp];
      (eapply grows_tr; [apply grows_refl|reflexivity]).
  - apply grows_emit. eapply grows_tr; [apply grows_refl|reflexivity].
Qed.
Lemma grows_free : forall p s, grows s (free_rta p s).
Proof.
  intros p s. unfold free_rta. destruct (rta (s_px s p)) as [[b f]|]; [|apply grows_refl].
  apply grows_emit, grows_setp, grows_refl.
Qed.
Lemma grows_fold : forall (l : list rmsg) s, grows s (fold_left (fun s m => emit (AFree (g_buf m)) s) l s).
Proof.
  induction l as [|m l IH]; intros s; cbn; [apply grows_refl|].
  eapply grows_trans; [|apply IH]. apply grows_emit, grows_refl.
Qed.
Lemma grows_close_px : forall p s, grows s (close_px cap p s).
Proof.
  intros p s. unfold close_px.
  set (s1 := match ms (s_px s p) with SClosed => s | _ => settimers (del_timer (handle (s_px s p)) (s_timers s)) s end).
  assert (grows s s1) by (unfold s1; destruct (ms (s_px s p)); eapply grows_tr; try apply grows_refl; reflexivity).
  assert (grows s (free_rta p s1)) by (eapply grows_trans; [eassumption|apply grows_free]).
  destruct (mr (s_px s p)); auto; (eapply grows_trans; [eassumption|apply grows_fold]).
Qed.
Lemma grows_close : forall w s, grows s (close cap ora w s).
Proof.
  intros w s. unfold close. eapply grows_tr with (s' := close_px cap true (close_px cap false _)); [|reflexivity].
  eapply grows_trans; [|apply grows_close_px]. eapply grows_trans; [|apply grows_close_px].
  destruct (ms _); try (eapply grows_trans; [|apply grows_req]); apply grows_emit, grows_refl.
Qed.

(** ** Closing *)

(** What is left of the invariant while the connection is being closed. *)
Record raw (s : st) (l : list nat) : Prop := mkRaw {
  w_crash : s_crash s = false;
  w_buf : bufs (s_tr s) (s_next s) l;
  w_tm : tmok (s_timers s) (s_next s);
  w_good : always (good cap) (s_tr s) }.

Lemma raw_perm : forall s l l', raw s l -> Permutation l l' -> raw s l'.
Proof. intros s l l' R P. destruct R. constructor; auto. eapply bufs_perm; eauto. Qed.

Lemma raw_free : forall s b l, raw s (b :: l) -> raw (emit (AFree b) s) l.
Proof. intros s b l R. destruct R. constructor; cbn; auto. eapply bufs_free; eauto. Qed.

Lemma raw_frees : forall (ms : list rmsg) s l, raw s (map g_buf ms ++ l) ->
  let s' := fold_left (fun s m => emit (AFree (g_buf m)) s) ms s in
  raw s' l /\ s_px s' = s_px s.
Proof.
  induction ms as [|m r IH]; intros s l R; cbn; auto.
  apply raw_free in R. destruct (IH _ _ R) as (A & B). split; auto.
Qed.

Lemma raw_close_px : forall p s rl rest, raw s (rtab (s_px s p) ++ map g_buf rl ++ rest) ->
  holds cap (rq (s_px s p)) rl -> mr (s_px s p) <> RClosed ->
  raw (close_px cap p s) rest /\ s_px (close_px cap p s) (negb p) = s_px s (negb p).
Proof.
  intros p s rl rest R H M. unfold close_px.
  set (s1 := match ms (s_px s p) with SClosed => s | _ => settimers (del_timer (handle (s_px s p)) (s_timers s)) s end).
  assert (R1 : raw s1 (rtab (s_px s p) ++ map g_buf rl ++ rest)).
  { unfold s1. destruct R. destruct (ms (s_px s p)); constructor; cbn; auto; now apply tmok_del. }
  assert (E1 : s_px s1 = s_px s) by (unfold s1; destruct (ms (s_px s p)); reflexivity).
  clearbody s1.
  assert (R2 : raw (free_rta p s1) (map g_buf rl ++ rest) /\ s_px (free_rta p s1) (negb p) = s_px s1 (negb p)).
  { unfold free_rta. unfold rtab in R1. rewrite E1. destruct (rta (s_px s p)) as [[b f]|].
    - split; [|cbn; destruct p; rewrite ?E1; auto]. apply raw_free. destruct R1. constructor; cbn; auto.
    - cbn in R1. rewrite E1. auto. }
  destruct R2 as (R2 & E2). set (s2 := free_rta p s1) in *. clearbody s2.
  destruct (mr (s_px s p)); [congruence| |];
  (unfold ring_reset; rewrite (holds_avail H); cbn [snd];
   destruct (@raw_frees (ring_items cap (rq (s_px s p))) s2 rest) as (A & B);
   [ eapply raw_perm; [exact R2|]; apply Permutation_app_tail; apply Permutation_map; symmetry;
     apply holds_items; auto
   | split; [exact A|rewrite B, E2, E1; reflexivity] ]).
Qed.

Lemma raw_send_plain : forall s l p f, raw s l -> f_tack f = false ->
  notif (f_cont f) = [] -> f_ack f = before (length (taken p (s_tr s))) ->
  raw (snd (a_data_req ora p f s)) l /\ s_px (snd (a_data_req ora p f s)) = s_px s.
Proof.
  intros s l p f R T C K. destruct R. unfold a_data_req.
  assert (G : (f_tack f = true -> waiting p (s_tr s) = false /\ f_send f = canon (length (sent p (s_tr s)))) /\
      f_ack f = before (length (taken p (s_tr s))) /\
      (forall a n, f_cont f = FNotify a n -> (exists w, accepted p (s_tr s) = handed p (s_tr s) ++ a :: w) /\
         (clean p (s_tr s) = true -> notified p (s_tr s) = confirmed p (s_tr s)))).
  { split; [congruence|]. split; [auto|]. intros a n X. rewrite X in C. discriminate. }
  destruct (o_alloc (ora (s_next s))); cbn [snd].
  - rewrite T. split; [|reflexivity]. constructor; cbn [s_crash emit bump s_tr s_next s_timers always]; auto.
    + eapply bufs_free; [apply bufs_other; [exact Logic.I|]; apply bufs_alloc; eassumption|].
      apply Permutation_refl.
    + now apply tmok_next.
    + split; [exact Logic.I|]. split; [exact G|]. split; [exact Logic.I|auto].
  - split; [|reflexivity]. constructor; cbn [s_crash emit bump s_tr s_next s_timers always]; auto.
    + apply bufs_other; [exact Logic.I|]. now apply bufs_next.
    + now apply tmok_next.
Qed.

(** What closing needs. *)
Record closable (h : list nat) (s : st) (rl : bool -> list rmsg) : Prop := mkClosable {
  b_raw : raw s (heldl s rl h);
  b_mr : forall p, mr (s_px s p) <> RClosed;
  b_rq : forall p, holds cap (rq (s_px s p)) (rl p);
  b_exp : exp_seq_o (s_px s false) = before (length (taken false (s_tr s))) }.

Lemma live_closable : forall h s rl sl, live cap h s rl sl -> closable h s rl.
Proof.
  intros h s rl sl L. constructor; try (intros; apply (v_okp L)).
  destruct L. constructor; auto.
Qed.

Lemma close_dead : forall h s rl w, closable h s rl -> good cap (AAbort w) (s_tr s) ->
  dead cap h (close cap ora w s).
Proof.
  intros h s rl w L G. unfold close.
  assert (L1 : closable h (emit (AAbort w) s) rl).
  { destruct L as [Lr Lm Lq Le]. constructor; auto. destruct Lr. constructor; cbn [s_crash emit s_tr s_next s_timers always]; auto. }
  set (s1 := emit (AAbort w) s) in *. clearbody s1. clear G L.
  set (s2 := match ms (s_px s1 false) with SClosed => s1 | _ => snd (a_data_req ora false
    (mkFrame FErr false (send_seq (s_px s1 false)) (exp_seq_o (s_px s1 false))) s1) end).
  assert (L2 : raw s2 (heldl s1 rl h) /\ s_px s2 = s_px s1).
  { unfold s2.
    destruct (@raw_send_plain s1 (heldl s1 rl h) false (mkFrame FErr false (send_seq (s_px s1 false)) (exp_seq_o (s_px s1 false))))
      as (A & B); auto; try apply L1.
    destruct (ms (s_px s1 false)); auto. split; auto. apply L1. }
  destruct L2 as (L2 & E0). clearbody s2. destruct L1 as [_ Lm Lq _]. unfold heldl in L2. rewrite <- E0 in *. clear E0 s1.
  assert (R : raw s2 (rtab (s_px s2 false) ++ map g_buf (rl false) ++
                      rtab (s_px s2 true) ++ map g_buf (rl true) ++ h)).
  { apply raw_perm with (1 := L2). set (a := rtab (s_px s2 true)). set (b := rtab (s_px s2 false)).
    set (c := map g_buf (rl true)). set (d := map g_buf (rl false)). clearbody a b c d. clear.
    rewrite (app_assoc d), (Permutation_app_comm d a), <- app_assoc.
    rewrite (app_assoc d c), (Permutation_app_comm d c), <- app_assoc.
    rewrite !app_assoc. apply Permutation_app_tail. apply Permutation_app_tail.
    apply Permutation_app_tail. apply Permutation_app_comm. }
  destruct (@raw_close_px false _ _ _ R) as (R1 & E1); [auto|auto|].
  cbn [negb] in E1. rewrite <- E1 in R1.
  destruct (@raw_close_px true _ _ _ R1) as (R2 & E2); [rewrite E1; auto|rewrite E1; auto|].
  destruct R2. constructor; cbn; auto.
Qed.

(** ** Sending a DATA frame *)

Definition updb (A : Type) (f : bool -> A) (p : bool) (v : A) : bool -> A :=
  fun q => if same q p then v else f q.
Lemma updb_same : forall A (f : bool -> A) p v, updb f p v p = v.
Proof. intros. unfold updb. now rewrite same_refl. Qed.
Lemma updb_other : forall A (f : bool -> A) p q v, q <> p -> updb f p v q = f q.
Proof. intros. unfold updb. now rewrite same_ne. Qed.

Lemma waiting_open : forall h s rl sl p, live cap h s rl sl ->
  (ms (s_px s p) = SOpen /\ waiting p (s_tr s) = false) \/
  (ms (s_px s p) = SWtack /\ waiting p (s_tr s) = true).
Proof.
  intros h s rl sl p L. pose proof (k_ms (v_okp L p)) as M. destruct (waiting p (s_tr s)); auto.
Qed.

Lemma not_pending : forall h s rl sl p, live cap h s rl sl -> waiting p (s_tr s) = false ->
  rta (s_px s p) = None /\ pending p (s_tr s) = None.
Proof.
  intros h s rl sl p L W. pose proof (v_okp L p) as K.
  assert (P : pending p (s_tr s) = None).
  { destruct (pending p (s_tr s)) eqn:E; auto. rewrite (k_wait K) in W; congruence. }
  split; auto. pose proof (k_rta K) as R. destruct (rta (s_px s p)) as [[b f]|]; auto.
  destruct R as (n & R & _). congruence.
Qed.

Definition is_notif (c : content) : bool := match c with FNotify _ _ => true | _ => false end.

Lemma notif_len : forall c, length (notif c) = if is_notif c then 1 else 0.
Proof. now intros []. Qed.

(** A DATA frame with content [c] is built for [x]. *)
Definition data_frame (c : content) (x : px) : frame := mkFrame c true (send_seq x) (exp_seq_o x).

Lemma okp_tx : forall p c x y tr rl sl1 b ok retries, okp cap p x tr rl (notif c ++ sl1) ->
  waiting p tr = false -> retries = agreed tr ->
  ms y = SWtack -> mr y = mr x -> lr y = lr x ->
  send_seq y = send_seq x -> send_seq_o y = send_seq_o x ->
  exp_seq y = exp_seq x -> exp_seq_o y = exp_seq_o x ->
  rta y = Some (b, data_frame c x) -> resend y = retries -> rq y = rq x ->
  holds cap (sq y) sl1 -> (is_notif c = true -> li x = IAlarm) ->
  li y = (if is_notif c && ok then IAck else li x) ->
  okp cap p y (ATx p (data_frame c x) b ok :: AAlloc b :: tr) rl sl1.
Proof.
  intros p c x y tr rl sl1 b ok retries K W -> Y1 Y2 Y3 Y4 Y5 Y6 Y7 Y8 Y9 Y10 Y11 N Y12.
  pose proof (k_sent K) as S0. rewrite W in S0.
  constructor; cbn [waiting owed tacks taken sent pending agreed accepted handed notified confirmed clean
    data_frame f_tack f_send f_cont f_ack]; rewrite ?same_refl; cbn [andb orb negb].
  - auto.
  - rewrite Y2. apply K.
  - rewrite Y12. destruct (is_notif c && ok); [discriminate|apply K].
  - rewrite Y3. apply K.
  - rewrite Y4. apply K.
  - rewrite Y5. apply K.
  - rewrite Y6. apply K.
  - rewrite Y7. apply K.
  - rewrite app_length. cbn. lia.
  - rewrite Y8. exists 0. repeat split; auto. cbn. apply K.
  - auto.
  - rewrite (k_acc K). now rewrite <- app_assoc.
  - rewrite Y10. apply K.
  - auto.
  - intros m Hm. destruct (k_in K m Hm). split; [cbn; auto|auto].
  - intros C. apply andb_true_iff in C. destruct C as (-> & C). rewrite notif_len, Y12.
    pose proof (k_out K C) as O. destruct (is_notif c) eqn:E; cbn.
    + rewrite (N eq_refl) in O. cbn in O. lia.
    + lia.
Qed.

Lemma okp_lost : forall p c x y tr rl sl1, okp cap p x tr rl (notif c ++ sl1) ->
  waiting p tr = false -> pending p tr = None ->
  ms y = SWtack -> mr y = mr x -> lr y = lr x ->
  send_seq y = send_seq x -> send_seq_o y = send_seq_o x ->
  exp_seq y = exp_seq x -> exp_seq_o y = exp_seq_o x ->
  rta y = None -> rq y = rq x -> holds cap (sq y) sl1 -> li y = li x ->
  okp cap p y (ALost p (data_frame c x) :: tr) rl sl1.
Proof.
  intros p c x y tr rl sl1 K W P Y1 Y2 Y3 Y4 Y5 Y6 Y7 Y8 Y10 Y11 Y12.
  pose proof (k_sent K) as S0. rewrite W in S0.
  constructor; cbn [waiting owed tacks taken sent pending agreed accepted handed notified confirmed clean
    data_frame f_tack f_send f_cont f_ack]; rewrite ?same_refl; cbn [andb orb negb].
  - auto.
  - rewrite Y2. apply K.
  - rewrite Y12. apply K.
  - rewrite Y3. apply K.
  - rewrite Y4. apply K.
  - rewrite Y5. apply K.
  - rewrite Y6. apply K.
  - rewrite Y7. apply K.
  - rewrite app_length. cbn. lia.
  - now rewrite Y8.
  - auto.
  - rewrite (k_acc K). now rewrite <- app_assoc.
  - rewrite Y10. apply K.
  - auto.
  - intros m Hm. destruct (k_in K m Hm). split; [cbn; auto|auto].
  - discriminate.
Qed.

Lemma okp_noarm : forall p x y tr rl sl, okp cap p x tr rl sl ->
  alike (with_li (li y) x) y -> mr y <> RClosed -> li y <> IStart ->
  okp cap p y (ANoArm p :: tr) rl sl.
Proof.
  intros p x y tr rl sl K (A1 & A3 & A4 & A5 & A6 & A7 & A8 & A9 & A10 & A11 & A12) M N.
  cbn in A1, A3, A4, A5, A6, A7, A8, A9, A10, A11.
  constructor; cbn [waiting owed tacks taken sent pending agreed accepted handed notified confirmed clean];
    rewrite ?same_refl, ?A1, ?A3, ?A4, ?A5, ?A6, ?A7, ?A8, ?A9, ?A10, ?A11; try apply K; auto; try discriminate.
  intros m Hm. destruct (k_in K m Hm). split; [cbn; auto|auto].
Qed.

Lemma other_neutral : forall p q c x b ok t us, q <> p ->
  neutral q (ATx p (data_frame c x) b ok) /\ neutral q (ALost p (data_frame c x)) /\
  neutral q (AAlloc b) /\ neutral q (AArm p t us) /\ neutral q (ANoArm p).
Proof. intros. cbn. auto 10. Qed.

Lemma req_live : forall h s rl sl p c x sl1 l ok s', live cap h s rl sl ->
  waiting p (s_tr s) = false ->
  alike (with_sq (sq x) (s_px s p)) x -> mr x = mr (s_px s p) ->
  holds cap (sq x) sl1 -> sl p = notif c ++ sl1 ->
  (is_notif c = true -> li x = IAlarm) ->
  apms_req cap ora p c (setp p x s) = (ok, s') ->
  l = (if is_notif c && ok then IAck else li x) ->
  live cap h (setp p (with_li l (s_px s' p)) s') rl (updb sl p sl1).
Proof.
  intros h s rl sl p c x sl1 l ok s' L W A0 X2 Hs Esl Hli E El.
  destruct (not_pending p L W) as (Rn & Pn).
  pose proof (v_okp L p) as K. pose proof (k_ms K) as M. rewrite W in M. rewrite Esl in K.
  destruct A0 as (A1 & A3 & A4 & A5 & A6 & A7 & A8 & A9 & A10 & _ & A12).
  cbn in A1, A3, A4, A5, A6, A7, A8, A9, A10, A12.
  assert (Ef : mkFrame c true (send_seq x) (exp_seq_o x) = data_frame c (s_px s p))
    by (unfold data_frame; congruence).
  assert (Lx : li x <> IStart) by (rewrite A12; apply K).
  assert (El0 : length (sent p (s_tr s)) = tacks p (s_tr s)).
  { pose proof (k_sent K) as S. rewrite W in S. lia. }
  assert (Gf : forall b, good cap (ATx p (data_frame c (s_px s p)) b ok) (AAlloc b :: s_tr s) /\
               good cap (ALost p (data_frame c (s_px s p))) (s_tr s)).
  { intros b. cbn. rewrite El0. rewrite (k_send K), (k_exp_o K).
    assert (N : forall a n, c = FNotify a n -> (exists w, accepted p (s_tr s) = handed p (s_tr s) ++ a :: w) /\
      (clean p (s_tr s) = true -> notified p (s_tr s) = confirmed p (s_tr s))).
    { intros a n E1. split; [exists sl1; rewrite (k_acc K), E1; reflexivity|]. intros C; pose proof (k_out K C) as O; rewrite <- A12 in O;
    rewrite Hli in O by (now rewrite E1); cbn in O; lia. }
    repeat split; auto; eapply N; eauto. }
  unfold apms_req in E. rewrite setp_same, A1, M in E. rewrite Ef in E. clear Ef.
  unfold a_data_req in E. cbn [f_tack data_frame] in E. fold (data_frame c (s_px s p)) in E.
  set (f := data_frame c (s_px s p)) in *.
  cbn -[f Z.mul] in E. rewrite same_refl in E. cbn -[f Z.mul] in E. rewrite A8, Rn in E.
  destruct L as [Lc Ll Lk Lr Lb Lt Lg].
  destruct (o_alloc (ora (s_next s))) eqn:Ea0; cbn -[f Z.mul] in E.
  - assert (BB : bufs (ATx p f (s_next s) (o_send (ora (s_next s))) :: AAlloc (s_next s) :: s_tr s)
       (S (s_next s)) (s_next s :: heldl s rl h)).
    { apply bufs_other; [exact Logic.I|]. now apply bufs_alloc. }
    destruct (o_sched (ora (S (s_next s)))) eqn:Eo0; cbn -[f Z.mul] in E; injection E as <- <-.
    + constructor; cbn -[f heldl Z.mul]; rewrite ?same_refl; cbn -[f heldl Z.mul]; auto.
      * intros q. destruct (bool_dec q p) as [->|N].
        -- rewrite ?same_refl, updb_same; cbn -[f Z.mul]. apply okp_neutral; [exact Logic.I|].
           eapply okp_tx with (x := s_px s p) (retries := s_retries s); cbn; eauto; try congruence.
           all: rewrite <- A12; auto.
        -- rewrite !(same_ne N), updb_other by auto. cbn -[f Z.mul].
           destruct (@other_neutral p q c (s_px s p) (s_next s) (o_send (ora (s_next s))) (S (s_next s)) (100000 * s_factor s)%Z N) as (N1 & N2 & N3 & N4 & N5).
           apply okp_neutral; auto. apply okp_neutral; auto. apply okp_neutral; auto.
      * apply bufs_other; [exact Logic.I|]. apply bufs_next. eapply bufs_perm; [exact BB|].
        unfold heldl; destruct p; cbn -[f Z.mul]; unfold rtab; cbn -[f Z.mul]; rewrite Rn; cbn -[f Z.mul]; auto.
        destruct (rta (s_px s true)) as [[b0 f0]|]; cbn; auto. apply perm_swap.
      * apply tmok_add. now apply tmok_next.
      * split; [exact Logic.I|]. split; [exact (proj1 (Gf (s_next s)))|]. auto.
    + constructor; cbn -[f heldl Z.mul]; rewrite ?same_refl; cbn -[f heldl Z.mul]; auto.
      * intros q. destruct (bool_dec q p) as [->|N].
        -- rewrite ?same_refl, updb_same; cbn -[f Z.mul].
           rewrite andb_false_r in El. subst l.
           eapply okp_noarm with (x := with_li (if is_notif c && o_send (ora (s_next s)) then IAck else li x)
               (with_ms SWtack (with_rta (Some (s_next s, f)) (with_resend (s_retries s) x)))).
           ++ eapply okp_tx with (x := s_px s p) (retries := s_retries s); cbn; eauto; try congruence.
              all: rewrite <- A12; auto.
           ++ unfold alike; cbn; auto 20.
           ++ cbn. rewrite X2. apply K.
           ++ cbn. auto.
        -- rewrite !(same_ne N), updb_other by auto. cbn -[f Z.mul].
           destruct (@other_neutral p q c (s_px s p) (s_next s) (o_send (ora (s_next s))) 0 0%Z N) as (N1 & N2 & N3 & N4 & N5).
           apply okp_neutral; auto. apply okp_neutral; auto. apply okp_neutral; auto.
      * apply bufs_other; [exact Logic.I|]. apply bufs_next. eapply bufs_perm; [exact BB|].
        unfold heldl; destruct p; cbn -[f Z.mul]; unfold rtab; cbn -[f Z.mul]; rewrite Rn; cbn -[f Z.mul]; auto.
        destruct (rta (s_px s true)) as [[b0 f0]|]; cbn; auto. apply perm_swap.
      * apply tmok_next. now apply tmok_next.
      * split; [exact Logic.I|]. split; [exact (proj1 (Gf (s_next s)))|]. auto.
  - destruct (o_sched (ora (S (s_next s)))) eqn:Eo0; cbn -[f Z.mul] in E; injection E as <- <-;
      rewrite andb_false_r in El; subst l.
    + constructor; cbn -[f heldl Z.mul]; rewrite ?same_refl; cbn -[f heldl Z.mul]; auto.
      * intros q. destruct (bool_dec q p) as [->|N].
        -- rewrite ?same_refl, updb_same; cbn -[f Z.mul]. apply okp_neutral; [exact Logic.I|].
           eapply okp_lost with (x := s_px s p); cbn; eauto; congruence.
        -- rewrite !(same_ne N), updb_other by auto. cbn -[f Z.mul].
           destruct (@other_neutral p q c (s_px s p) 0 true (S (s_next s)) (100000 * s_factor s)%Z N) as (N1 & N2 & N3 & N4 & N5).
           apply okp_neutral; auto. apply okp_neutral; auto.
      * apply bufs_other; [exact Logic.I|]. apply bufs_next. apply bufs_other; [exact Logic.I|]. apply bufs_next.
        eapply bufs_perm; [exact Lb|].
        unfold heldl; destruct p; cbn -[f Z.mul]; unfold rtab; cbn -[f Z.mul]; rewrite Rn; cbn -[f Z.mul]; rewrite A8, Rn; auto.
      * apply tmok_add. now apply tmok_next.
      * split; [exact Logic.I|]. split; [exact (proj2 (Gf 0))|]. auto.
    + constructor; cbn -[f heldl Z.mul]; rewrite ?same_refl; cbn -[f heldl Z.mul]; auto.
      * intros q. destruct (bool_dec q p) as [->|N].
        -- rewrite ?same_refl, updb_same; cbn -[f Z.mul].
           apply okp_neutral; [exact Logic.I|].
           eapply okp_lost with (x := s_px s p); cbn; eauto; congruence.
        -- rewrite !(same_ne N), updb_other by auto. cbn -[f Z.mul].
           destruct (@other_neutral p q c (s_px s p) 0 true 0 0%Z N) as (N1 & N2 & N3 & N4 & N5).
           apply okp_neutral; auto. apply okp_neutral; auto.
      * apply bufs_other; [exact Logic.I|]. apply bufs_next. apply bufs_other; [exact Logic.I|]. apply bufs_next.
        eapply bufs_perm; [exact Lb|].
        unfold heldl; destruct p; cbn -[f Z.mul]; unfold rtab; cbn -[f Z.mul]; rewrite Rn; cbn -[f Z.mul]; rewrite A8, Rn; auto.
      * apply tmok_next. now apply tmok_next.
      * split; [exact Logic.I|]. split; [exact (proj2 (Gf 0))|]. auto.
Qed.

(** The frame before still waits for its transport acknowledge. *)
Lemma okp_busy : forall p c x y tr rl sl1, okp cap p x tr rl (notif c ++ sl1) ->
  alike (with_sq (sq y) x) y -> mr y = mr x -> holds cap (sq y) sl1 ->
  okp cap p y (ABusy p c :: tr) rl sl1.
Proof.
  intros p c x y tr rl sl1 K (A1 & A3 & A4 & A5 & A6 & A7 & A8 & A9 & A10 & A11 & A12) M H.
  cbn in A1, A3, A4, A5, A6, A7, A8, A9, A10, A12.
  constructor; cbn [waiting owed tacks taken sent pending agreed accepted handed notified confirmed clean];
    rewrite ?same_refl, ?A1, ?A3, ?A4, ?A5, ?A6, ?A7, ?A8, ?A9, ?A10, ?A12, ?M; try apply K; auto.
  - rewrite <- app_assoc. apply K.
  - intros m Hm. destruct (k_in K m Hm). split; [cbn; auto|auto].
Qed.

Lemma req_busy : forall h s rl sl p c x sl1 ok s', live cap h s rl sl ->
  waiting p (s_tr s) = true ->
  alike (with_sq (sq x) (s_px s p)) x -> mr x = mr (s_px s p) ->
  holds cap (sq x) sl1 -> sl p = notif c ++ sl1 ->
  apms_req cap ora p c (setp p x s) = (ok, s') -> ok = false /\ crashed cap s'.
Proof.
  intros h s rl sl p c x sl1 ok s' L W A Hm Hs Esl E.
  pose proof (v_okp L p) as K. pose proof (k_ms K) as M. rewrite W in M. rewrite Esl in K.
  unfold apms_req in E. rewrite setp_same in E.
  replace (ms x) with SWtack in E by (rewrite <- M; symmetry; apply A).
  injection E as <- <-. split; auto. unfold cnf_neg, error_ind. cbn [s_live emit setp].
  rewrite (v_live L).
  assert (C : closable h (emit (ABusy p c) (setp p x s)) rl).
  { assert (L' : live cap h (emit (ABusy p c) (setp p x s)) rl (updb sl p sl1)).
    { destruct L as [Lc Ll Lk Lr Lb Lt Lg]. constructor; cbn [s_crash s_live emit setp s_tr s_next s_timers s_retries always]; auto.
      - intros q. cbn [s_px emit]. destruct (bool_dec q p) as [->|N].
        + rewrite setp_same, updb_same. eapply okp_busy; eauto.
        + rewrite setp_other, updb_other by auto. apply okp_neutral; cbn; auto.
      - apply bufs_other; [exact Logic.I|]. eapply bufs_perm; [exact Lb|].
        change (heldl (emit (ABusy p c) (setp p x s)) rl h) with (heldl (setp p x s) rl h).
        rewrite heldl_setp; [apply Permutation_refl|]. unfold rtab.
        replace (rta x) with (rta (s_px s p)); auto. symmetry; apply A.
      - cbn [good]. split; auto. split; auto. intros a n ->. exists sl1. apply K. }
    eapply live_closable; exact L'. }
  pose proof (@close_dead _ _ _ WBusy C Logic.I) as D.
  set (s0 := emit (ABusy p c) (setp p x s)) in *.
  assert (Hin : In (ABusy p c) (s_tr s0)) by (cbn; auto).
  pose proof (@grows_in _ _ _ (grows_close WBusy s0) Hin) as Hin2. set (s3 := close cap ora WBusy s0) in *. clearbody s3.
  rewrite (d_live D). constructor; cbn; eauto. split; [eauto|apply D].
Qed.

(** ** Transport acknowledge *)

Lemma okp_tack : forall p x y tr rl sl n, okp cap p x tr rl sl -> waiting p tr = true ->
  ms y = SOpen -> rta y = None -> send_seq y = next_seq (send_seq x) -> send_seq_o y = send_seq x ->
  alike (with_ms (ms y) (with_rta (rta y) (with_send (send_seq y) (send_seq_o y) x))) y ->
  mr y = mr x -> okp cap p y (ATack p n :: tr) rl sl.
Proof.
  intros p x y tr rl sl n K W Y1 Y2 Y3 Y4 (A1 & A3 & A4 & A5 & A6 & A7 & A8 & A9 & A10 & A11 & A12) M.
  cbn in A1, A3, A4, A5, A6, A7, A8, A9, A10, A11, A12.
  pose proof (k_sent K) as S0. rewrite W in S0.
  constructor; cbn [waiting owed tacks taken sent pending agreed accepted handed notified confirmed clean];
    rewrite ?same_refl; cbn [negb andb Nat.add];
    rewrite ?Y1, ?Y2, ?Y3, ?Y4, ?A3, ?A6, ?A7, ?A9, ?A10, ?A11, ?A12, ?M; try apply K; auto; try congruence.
  - rewrite (k_send K). apply next_canon.
  - lia.
  - intros m Hm. destruct (k_in K m Hm). split; [cbn; auto|auto].
Qed.

Lemma okp_ackcnf : forall p x y tr rl sl, okp cap p x tr rl sl ->
  lr y = LNotify -> alike (with_lr (lr y) x) y -> mr y = mr x ->
  okp cap p y (AAckCnf p :: tr) rl sl.
Proof.
  intros p x y tr rl sl K Y1 (A1 & A3 & A4 & A5 & A6 & A7 & A8 & A9 & A10 & A11 & A12) M.
  cbn in A1, A3, A4, A5, A6, A7, A8, A9, A10, A11, A12.
  constructor; cbn [waiting owed tacks taken sent pending agreed accepted handed notified confirmed clean];
    rewrite ?same_refl; cbn [negb andb Nat.add];
    rewrite ?Y1, ?A1, ?A4, ?A5, ?A6, ?A7, ?A8, ?A9, ?A10, ?A11, ?A12, ?M; try apply K; auto.
  intros m Hm. destruct (k_in K m Hm). split; [cbn; auto|auto].
Qed.

Lemma grows_tack : forall p ack s, grows s (tack_ind p ack s).
Proof.
  intros p ack s. unfold tack_ind, cnf_pos. destruct (ms (s_px s p)); try apply grows_refl.
  destruct (ack =? send_seq (s_px s p))%Z; [|apply grows_refl].
  apply grows_setp. set (s1 := free_rta p _).
  assert (grows s s1) by (unfold s1; eapply grows_trans; [|apply grows_free]; apply grows_emit, grows_setp, grows_refl).
  destruct (lr (s_px s1 p)); auto. apply grows_setp, grows_emit. auto.
Qed.

Lemma tack_live : forall h s rl sl p ack, live cap h s rl sl -> live cap h (tack_ind p ack s) rl sl.
Proof.
  intros h s rl sl p ack L. unfold tack_ind.
  destruct (waiting_open p L) as [(M & W)|(M & W)]; rewrite M; auto.
  destruct (Z.eqb_spec ack (send_seq (s_px s p))) as [->|]; auto.
  pose proof (v_okp L p) as K. set (x := s_px s p) in *.
  set (x1 := with_ms SOpen (with_rta None (with_send (next_seq (send_seq x)) (send_seq x) x))).
  set (o1 := ATack p (send_seq x)).
  assert (G1 : good cap o1 (s_tr s)) by (cbn; split; auto; apply K).
  assert (K1 : okp cap p x1 (o1 :: s_tr s) (rl p) (sl p)).
  { eapply okp_tack; eauto; unfold alike; cbn; auto 20. }
  assert (KN : okp cap (negb p) (s_px s (negb p)) (o1 :: s_tr s) (rl (negb p)) (sl (negb p))).
  { apply okp_neutral; [cbn; destruct p; discriminate|apply L]. }
  (* after freeing *)
  set (tr2 := match rta x with Some (b, _) => AFree b :: o1 :: s_tr s | None => o1 :: s_tr s end).
  assert (K2 : okp cap p x1 tr2 (rl p) (sl p)).
  { unfold tr2. destruct (rta x) as [[b f]|]; auto. apply okp_neutral; cbn; auto. }
  assert (KN2 : okp cap (negb p) (s_px s (negb p)) tr2 (rl (negb p)) (sl (negb p))).
  { unfold tr2. destruct (rta x) as [[b f]|]; auto. apply okp_neutral; cbn; auto. }
  assert (G2 : always (good cap) tr2).
  { unfold tr2. destruct (rta x) as [[b f]|]; cbn [always]; repeat split; auto; apply L || apply G1. }
  assert (B2 : bufs tr2 (s_next s) (rtab (s_px s (negb p)) ++ map g_buf (rl true) ++ map g_buf (rl false) ++ h)).
  { assert (B1 : bufs (o1 :: s_tr s) (s_next s) (rtab x ++ rtab (s_px s (negb p)) ++ map g_buf (rl true) ++ map g_buf (rl false) ++ h)).
    { apply bufs_other; [exact Logic.I|]. eapply bufs_perm; [apply (v_buf L)|]. unfold heldl, x.
      destruct p; cbn [negb]; auto. rewrite !(app_assoc (rtab _) (rtab _)). apply Permutation_app_tail. apply Permutation_app_comm. }
    unfold tr2. unfold rtab at 1 in B1. destruct (rta x) as [[b f]|]; auto. eapply bufs_free; [exact B1|apply Permutation_refl]. }
  assert (A2 : agreed tr2 = agreed (s_tr s)).
  { unfold tr2. destruct (rta x) as [[b f]|]; reflexivity. }
  set (s1 := emit o1 (setp p (with_send (next_seq (send_seq x)) (send_seq x) x) s)).
  assert (E2 : s_tr (free_rta p s1) = tr2 /\ s_next (free_rta p s1) = s_next s /\ s_timers (free_rta p s1) = s_timers s /\
    s_crash (free_rta p s1) = s_crash s /\ s_live (free_rta p s1) = s_live s /\ s_retries (free_rta p s1) = s_retries s /\
    s_px (free_rta p s1) (negb p) = s_px s (negb p) /\ alike (with_ms SWtack x1) (s_px (free_rta p s1) p) /\
    mr (s_px (free_rta p s1) p) = mr x).
  { unfold free_rta, tr2. replace (rta (s_px s1 p)) with (rta x) by (unfold s1; cbn; now rewrite same_refl).
    destruct (rta x) as [[b f]|] eqn:Er; cbn; rewrite ?same_refl; cbn; rewrite ?(same_ne (q := negb p) (p := p)) by (destruct p; discriminate);
    repeat split; auto; unfold alike; cbn; rewrite ?M, ?Er; auto 20. }
  set (s2 := free_rta p s1) in *. destruct E2 as (E2 & E3 & E4 & E5 & E6 & E7 & E8 & E9 & E10). clearbody s2.
  destruct E9 as (Q1 & Q3 & Q4 & Q5 & Q6 & Q7 & Q8 & Q9 & Q10 & Q11 & Q12).
  cbn in Q1, Q3, Q4, Q5, Q6, Q7, Q8, Q9, Q10, Q11, Q12.
  assert (NB : forall q, q <> p -> q = negb p) by (intros [] ; destruct p; cbn; congruence).
  assert (R0 : rtab (with_ms SOpen (s_px s2 p)) = []) by (unfold rtab; cbn; now rewrite Q8).
  assert (R1 : rtab (with_ms SOpen (with_lr LNotify (s_px s2 p))) = []) by (unfold rtab; cbn; now rewrite Q8).
  unfold cnf_pos. rewrite Q3. destruct (owed p (s_tr s)) eqn:Eo; rewrite (k_lr K), Eo; cbn [lr_of].
  1,2: constructor; cbn [s_crash s_live s_retries s_next s_timers s_tr setp emit];
    rewrite ?E2, ?E3, ?E4, ?E5, ?E6, ?E7, ?A2; try apply L; auto;
    [ intros q; destruct (bool_dec q p) as [->|N];
      [ rewrite setp_same; eapply okp_alike; [exact K2| unfold alike; cbn; auto 20 | cbn; rewrite E10; apply K]
      | rewrite setp_other by auto; rewrite (NB q N), E8; exact KN2 ]
    | eapply bufs_perm; [exact B2|]; unfold heldl; destruct p; cbn [s_px setp Bool.eqb];
      cbn [negb] in E8; rewrite E8, R0; cbn [app negb]; auto ].
  (* with confirmation *)
  constructor; cbn [s_crash s_live s_retries s_next s_timers s_tr setp emit always agreed];
    rewrite ?E2, ?E3, ?E4, ?E5, ?E6, ?E7, ?A2; try apply L; auto.
  - intros q; destruct (bool_dec q p) as [->|N].
    + rewrite !setp_same. eapply okp_ackcnf; [exact K2| reflexivity | unfold alike; cbn; auto 20 | cbn; rewrite ?E10; auto].
    + rewrite setp_other by auto. cbn [s_px setp]. rewrite (same_ne N). cbn [s_px emit]. rewrite (NB q N), E8.
      apply okp_neutral; [cbn; destruct p; discriminate|exact KN2].
  - apply bufs_other; [exact Logic.I|]. eapply bufs_perm; [exact B2|]; unfold heldl; destruct p; cbn [s_px setp Bool.eqb emit];
      cbn [negb] in E8; rewrite ?E8, ?R1; cbn [app negb]; auto.
  - split; auto. cbn. unfold tr2. destruct (rta x) as [[b f]|]; cbn; auto.
Qed.

(** ** Timeout *)

Lemma okp_retx : forall p x y tr rl sl f n, okp cap p x tr rl sl -> pending p tr = Some (f, n) ->
  resend x = S (resend y) -> alike (with_resend (resend y) x) y -> mr y = mr x ->
  okp cap p y (AReTx p f :: tr) rl sl.
Proof.
  intros p x y tr rl sl f n K P R (A1 & A3 & A4 & A5 & A6 & A7 & A8 & A9 & A10 & A11 & A12) M.
  cbn in A1, A3, A4, A5, A6, A7, A8, A9, A10, A11, A12.
  constructor; cbn [waiting owed tacks taken sent pending agreed accepted handed notified confirmed clean];
    rewrite ?same_refl; cbn [negb andb Nat.add];
    rewrite ?A1, ?A3, ?A4, ?A5, ?A6, ?A7, ?A8, ?A10, ?A11, ?A12, ?M; try apply K; auto.
  - pose proof (k_rta K) as Q. rewrite P in *. destruct (rta x) as [[b g]|]; [|discriminate].
    destruct Q as (k & Q1 & Q2 & Q3 & Q4). injection Q1 as -> ->. exists (S k). repeat split; auto. lia.
  - intros _. apply (k_wait K). congruence.
  - intros m Hm. destruct (k_in K m Hm). split; [cbn; auto|auto].
Qed.

Definition inv (h : list nat) (s : st) : Prop :=
  (exists rl sl, live cap h s rl sl) \/ dead cap h s \/ crashed cap s.

Lemma raw_next : forall s l, raw s l -> raw (bump s) l.
Proof. intros s l R. destruct R. constructor; cbn; auto using bufs_next, tmok_next. Qed.

Lemma timeout_inv : forall t p s, inv [] s -> s_crash s = false -> inv [] (timeout cap ora t p s).
Proof.
  intros t p s [(rl & sl & L)|[D|C]] Hc; [| |destruct C; congruence].
  2:{ right; left. unfold timeout. cbn [s_px settimers emit]. rewrite !setp_same. cbn [s_px settimers emit].
      rewrite (d_px D). cbn [ms with_handle px0]. unfold free_rta. rewrite setp_same.
      cbn [rta with_handle px0]. constructor; cbn; try apply D; auto.
      - intros q. destruct (same q p) eqn:E; [reflexivity|]. apply (d_px D).
      - apply tmok_filter, D.
      - split; [exact Logic.I|apply D]. }
  unfold timeout.
  set (s1 := setp p _ _).
  assert (L1 : live cap [] s1 rl sl).
  { unfold s1. apply live_alike; [|unfold alike; cbn; auto 20|cbn; apply L].
    apply live_emit; cbn; auto. destruct L. constructor; cbn; auto. now apply tmok_filter. }
  assert (T1 : exists r, s_tr s1 = AFire p t :: r) by (cbn; eauto).
  clearbody s1. clear L.
  pose proof (v_okp L1 p) as K.
  destruct (waiting_open p L1) as [(M & W)|(M & W)]; rewrite M.
  { left. exists rl, sl. unfold free_rta. destruct (not_pending p L1 W) as (R & _). rewrite R. auto. }
  destruct (rta (s_px s1 p)) as [[b f]|] eqn:Er; [|left; eauto].
  pose proof (k_rta K) as Q. rewrite Er in Q. destruct Q as (n & Q1 & Q2 & Q3 & Q4).
  destruct (resend (s_px s1 p)) as [|k] eqn:Ek.
  - (* give up *)
    right; left. unfold error_ind. cbn [s_live setp]. rewrite (v_live L1).
    destruct T1 as (r & T1). apply close_dead with (rl := rl).
    + pose proof (live_closable L1) as [Cr Cm Cq Ce]. constructor.
      * destruct Cr. constructor; cbn [s_crash s_tr s_next s_timers setp]; auto. rewrite heldl_setp; auto.
      * intros q. destruct (bool_dec q p) as [->|N]; [rewrite setp_same; apply Cm|rewrite setp_other by auto; apply Cm].
      * intros q. destruct (bool_dec q p) as [->|N]; [rewrite setp_same; apply Cq|rewrite setp_other by auto; apply Cq].
      * destruct p; cbn; auto.
    + cbn [s_tr setp]. exists t, r, f. split; auto. rewrite Q1. f_equal. f_equal. lia.
  - left. exists rl, sl.
    set (s2 := emit (AReTx p f) (setp p (with_resend k (s_px s1 p)) s1)).
    assert (L2 : live cap [] s2 rl sl).
    { destruct L1 as [Lc Ll Lk Lr Lb Lt Lg]. constructor; cbn [s2 s_crash s_live s_tr s_next s_timers s_retries s_px setp emit agreed]; auto.
      - intros q. destruct (bool_dec q p) as [->|N].
        + rewrite same_refl. eapply okp_retx; eauto; cbn; auto. unfold alike; cbn; auto 20.
        + rewrite same_ne by auto. apply okp_neutral; cbn; auto.
      - apply bufs_other; [exact Logic.I|]. change (heldl s2 rl []) with (heldl (setp p (with_resend k (s_px s1 p)) s1) rl []).
        rewrite heldl_setp; auto.
      - cbn [always]. split; auto. cbn. split; [exists n; split; auto; lia|]. destruct T1 as (r & T1). eauto. }
    clearbody s2. cbn zeta.
    destruct (o_sched (ora (s_next s2))).
    + destruct L2 as [Lc Ll Lk Lr Lb Lt Lg]. constructor; cbn [s_crash s_live s_tr s_next s_timers s_retries s_px setp emit agreed settimers bump]; auto.
      * intros q. destruct (bool_dec q p) as [->|N].
        -- rewrite same_refl. apply okp_neutral; [exact Logic.I|]. eapply okp_alike; [apply Lk|unfold alike; cbn; auto 20|cbn; apply Lk].
        -- rewrite same_ne by auto. apply okp_neutral; cbn; auto.
      * apply bufs_other; [exact Logic.I|]. apply bufs_next. eapply bufs_perm; [exact Lb|].
        unfold heldl; destruct p; reflexivity.
      * now apply tmok_add.
      * cbn [always]. split; auto. exact Logic.I.
    + apply live_emit; cbn; auto. destruct L2. constructor; cbn; auto using bufs_next, tmok_next.
Qed.

(** ** Receiving *)

Lemma okp_taken : forall p x y tr rl sl n, okp cap p x tr rl sl ->
  exp_seq y = next_seq (exp_seq x) -> exp_seq_o y = exp_seq x ->
  alike (with_exp (exp_seq y) (exp_seq_o y) x) y -> mr y = mr x ->
  okp cap p y (ATaken p n :: tr) rl sl.
Proof.
  intros p x y tr rl sl n K Y1 Y2 (A1 & A3 & A4 & A5 & A6 & A7 & A8 & A9 & A10 & A11 & A12) M.
  cbn in A1, A3, A4, A5, A6, A7, A8, A9, A10, A11, A12.
  constructor; cbn [waiting owed tacks taken sent pending agreed accepted handed notified confirmed clean];
    rewrite ?same_refl; cbn [negb andb Nat.add]; rewrite ?app_length, ?Nat.add_1_r; cbn [length]; rewrite ?Nat.add_1_r;
    rewrite ?Y1, ?Y2, ?A1, ?A3, ?A4, ?A5, ?A8, ?A9, ?A10, ?A11, ?A12, ?M; try apply K; auto.
  - rewrite (k_exp K). apply next_canon.
  - intros m Hm. destruct (k_in K m Hm). split; [cbn; auto|auto].
Qed.

Lemma okp_cnf : forall p x y tr rl sl t, okp cap p x tr rl sl -> li x = IAck -> li y = IAlarm ->
  alike (with_li (li y) x) y -> mr y = mr x -> okp cap p y (ACnf p t :: tr) rl sl.
Proof.
  intros p x y tr rl sl t K X Y1 (A1 & A3 & A4 & A5 & A6 & A7 & A8 & A9 & A10 & A11 & A12) M.
  cbn in A1, A3, A4, A5, A6, A7, A8, A9, A10, A11, A12.
  constructor; cbn [waiting owed tacks taken sent pending agreed accepted handed notified confirmed clean];
    rewrite ?same_refl; cbn [negb andb Nat.add];
    rewrite ?Y1, ?A1, ?A3, ?A4, ?A5, ?A6, ?A7, ?A8, ?A9, ?A10, ?A11, ?M; try apply K; auto; try discriminate.
  - intros m Hm. destruct (k_in K m Hm). split; [cbn; auto|auto].
  - intros C. pose proof (k_out K C) as O. rewrite X in O. cbn in O |- *. lia.
Qed.

Lemma okp_ind : forall p x y tr rl sl d usi len pos b, okp cap p x tr rl sl ->
  lr y = LUserAck -> alike (with_lr (lr y) x) y -> mr y = mr x ->
  okp cap p y (AInd p d usi len pos b :: tr) rl sl.
Proof.
  intros p x y tr rl sl d usi len pos b K Y1 (A1 & A3 & A4 & A5 & A6 & A7 & A8 & A9 & A10 & A11 & A12) M.
  cbn in A1, A3, A4, A5, A6, A7, A8, A9, A10, A11, A12.
  constructor; cbn [waiting owed tacks taken sent pending agreed accepted handed notified confirmed clean];
    rewrite ?same_refl; cbn [negb andb Nat.add];
    rewrite ?Y1, ?A1, ?A4, ?A5, ?A6, ?A7, ?A8, ?A9, ?A10, ?A11, ?A12, ?M; try apply K; auto.
  intros m Hm. destruct (k_in K m Hm). split; [cbn; auto|auto].
Qed.

(** Setting a priority's state and adding one observation about it. *)
Lemma live_obs : forall h s rl sl p y o, live cap h s rl sl ->
  okp cap p y (o :: s_tr s) (rl p) (sl p) -> rtab y = rtab (s_px s p) ->
  neutral (negb p) o -> nobuf o -> good cap o (s_tr s) -> agreed (o :: s_tr s) = agreed (s_tr s) ->
  live cap h (emit o (setp p y s)) rl sl.
Proof.
  intros h s rl sl p y o L K R N B G A. destruct L as [Lc Ll Lk Lr Lb Lt Lg].
  constructor; cbn [s_crash s_live s_tr s_next s_timers s_retries s_px setp emit]; auto.
  - intros q. destruct (bool_dec q p) as [->|Nq]; [rewrite same_refl; auto|].
    rewrite same_ne by auto. assert (q = negb p) as -> by (destruct q, p; cbn; congruence).
    apply okp_neutral; auto.
  - congruence.
  - apply bufs_other; auto. change (heldl (emit o (setp p y s)) rl h) with (heldl (setp p y s) rl h).
    rewrite heldl_setp; auto.
  - cbn [always]. auto.
Qed.

(** The part common to all DATA frames with the expected number. *)
Definition accept (p : bool) (send ack : Z) (s : st) : bool * st :=
  let s := tack_ind p ack s in
  let x := s_px s p in
  let s := emit (ATaken p send) (setp p (with_exp (next_seq (exp_seq x)) (exp_seq x) x) s) in
  send_tack ora p s.

Lemma tack_exp : forall p ack s q, exp_seq (s_px (tack_ind p ack s) q) = exp_seq (s_px s q) /\
  exp_seq_o (s_px (tack_ind p ack s) q) = exp_seq_o (s_px s q) /\ mr (s_px (tack_ind p ack s) q) = mr (s_px s q) /\
  li (s_px (tack_ind p ack s) q) = li (s_px s q).
Proof.
  intros p ack s q. unfold tack_ind, cnf_pos, free_rta. destruct (ms (s_px s p)); auto.
  destruct (ack =? send_seq (s_px s p))%Z; auto. destruct (same q p) eqn:E.
  - apply eqb_prop in E. subst q.
    cbn. rewrite ?same_refl; cbn. destruct (rta (s_px s p)) as [[b f]|]; cbn; rewrite ?same_refl; cbn;
    destruct (lr (s_px s p)); cbn; rewrite ?same_refl; cbn; auto.
  - cbn. rewrite ?same_refl, ?E; cbn. destruct (rta (s_px s p)) as [[b f]|]; cbn; rewrite ?same_refl, ?E; cbn;
    destruct (lr (s_px s p)); cbn; rewrite ?same_refl, ?E; cbn; auto.
Qed.

Lemma accept_live : forall h s rl sl p send ack ok s', live cap h s rl sl ->
  send = exp_seq (s_px s p) -> accept p send ack s = (ok, s') ->
  live cap h s' rl sl /\ (ok = true -> just_taken p send (s_tr s')) /\ grows s s' /\
  mr (s_px s' p) = mr (s_px s p).
Proof.
  intros h s rl sl p send ack ok s' L E A. unfold accept in A.
  pose proof (tack_live p ack L) as L1. pose proof (grows_tack p ack s) as G1.
  destruct (tack_exp p ack s p) as (X1 & X2 & X3 & X4).
  set (s1 := tack_ind p ack s) in *. clearbody s1. rewrite <- X1 in E. clear X1 X2.
  set (s2 := emit (ATaken p send) (setp p (with_exp (next_seq (exp_seq (s_px s1 p))) (exp_seq (s_px s1 p)) (s_px s1 p)) s1)) in *.
  assert (L2 : live cap h s2 rl sl).
  { unfold s2. apply live_obs; auto; try (cbn; destruct p; discriminate).
    - eapply okp_taken; [apply L1| reflexivity | reflexivity | unfold alike; cbn; auto 20 | reflexivity].
    - exact Logic.I.
    - cbn. rewrite E. apply (v_okp L1 p). }
  assert (T2 : s_tr s2 = ATaken p send :: s_tr s1) by reflexivity.
  assert (M2 : mr (s_px s2 p) = mr (s_px s1 p)) by (unfold s2; cbn [s_px emit]; rewrite setp_same; reflexivity).
  assert (G2 : grows s s2) by (eapply grows_trans; [exact G1|]; exists [ATaken p send]; reflexivity).
  clearbody s2.
  unfold send_tack in A. set (f := mkFrame FTack false (send_seq_o (s_px s2 p)) (exp_seq_o (s_px s2 p))) in *.
  assert (F : s' = snd (a_data_req ora p f s2)) by (now rewrite A).
  split; [|split; [|split]].
  - rewrite F. apply send_plain; auto. cbn. apply (v_okp L2 p).
  - intros ->. unfold a_data_req in A. destruct (o_alloc (ora (s_next s2))); [|discriminate].
    cbn -[f] in A. destruct (o_send (ora (s_next s2))); [|discriminate]. injection A as <-.
    cbn. rewrite T2. exists (s_next s2), f, (s_tr s1). auto.
  - rewrite F. eapply grows_trans; [exact G2|apply grows_req].
  - rewrite F. transitivity (mr (s_px s2 p)); [|congruence].
    unfold a_data_req. destruct (o_alloc (ora (s_next s2))); reflexivity.
Qed.

Lemma alike_mr : forall v x, alike x (with_mr v x).
Proof. intros. unfold alike; cbn; auto 20. Qed.

Lemma data_inv : forall h s rl sl p m tack send ack y ok s', live cap h s rl sl ->
  In (AIn p m) (s_tr s) -> frame_wf m -> parse p m = Ok (PData tack send ack y) ->
  data_ind cap ora p tack send ack y (g_buf m) s = (ok, s') ->
  (exists rl sl, live cap h s' rl sl) \/ dead cap h s'.
Proof.
  intros h s rl sl p m tack send ack y ok s' L Hin Hwf Hp E. unfold data_ind in E.
  pose proof (v_okp L p) as K.
  destruct (mr (s_px s p)) eqn:Em.
  - now apply k_mr in K.
  - destruct (negb tack); [injection E as <- <-; left; eauto|].
    destruct (Z.eqb_spec send (exp_seq (s_px s p))) as [Es|Es].
    + fold (accept p send ack s) in E.
      assert (AC : forall w s1, good cap (AAbort w) (s_tr s1) -> live cap h s1 rl sl -> dead cap h (error_ind cap ora w s1)).
      { intros w s1 G L1. unfold error_ind. rewrite (v_live L1). eapply close_dead; eauto. eapply live_closable; eauto. }
      destruct y as [t|d usi len pos| |].
      * destruct (accept p send ack s) as [ok1 s1] eqn:Ea.
        destruct (@accept_live h s rl sl p send ack ok1 s1 L Es Ea) as (L1 & J & G & M1).
        destruct ok1; injection E as <- <-; [|left; eauto].
        left. exists rl, sl. specialize (J eq_refl).
        apply live_alike; [|apply alike_mr|cbn; discriminate].
        assert (L2 : live cap h (setp p (with_mr RWcnf (s_px s1 p)) s1) rl sl)
          by (apply live_alike; auto; [apply alike_mr|cbn; discriminate]).
        unfold alpmi_data. rewrite setp_same. cbn [li with_mr]. destruct (li (s_px s1 p)) eqn:El; auto.
        change (emit (ACnf p t) (setp p (with_li IAlarm (with_mr RWcnf (s_px s1 p))) (setp p (with_mr RWcnf (s_px s1 p)) s1)))
          with (emit (ACnf p t) (setp p (with_li IAlarm (with_mr RWcnf (s_px s1 p))) (setp p (with_mr RWcnf (s_px s1 p)) s1))).
        apply live_obs; auto; try (cbn; destruct p; discriminate); try exact Logic.I.
        -- eapply okp_cnf with (x := with_mr RWcnf (s_px s1 p)); auto.
           ++ pose proof (v_okp L2 p) as K2. rewrite setp_same in K2. exact K2.
           ++ unfold alike; cbn; auto 20.
        -- now rewrite setp_same.
        -- cbn [s_tr setp]. exists m, tack, send, ack. split; [eapply grows_in; eauto|auto].
      * destruct (accept p send ack s) as [ok1 s1] eqn:Ea.
        destruct (@accept_live h s rl sl p send ack ok1 s1 L Es Ea) as (L1 & J & G & M1).
        destruct ok1; [|injection E as <- <-; left; eauto]. specialize (J eq_refl).
        assert (L2 : live cap h (setp p (with_mr RWcnf (s_px s1 p)) s1) rl sl)
          by (apply live_alike; auto; [apply alike_mr|cbn; discriminate]).
        set (s2 := setp p (with_mr RWcnf (s_px s1 p)) s1) in *.
        assert (T2 : s_tr s2 = s_tr s1) by reflexivity. clearbody s2.
        unfold alpmr_data in E. pose proof (k_lr (v_okp L2 p)) as Kl.
        destruct (lr (s_px s2 p)) eqn:El.
        -- destruct (owed p (s_tr s2)); discriminate.
        -- injection E as <- <-. left. exists rl, sl. apply live_alike; [|apply alike_mr|cbn; discriminate].
           apply live_obs; auto; try (cbn; destruct p; discriminate); try exact Logic.I.
           ++ eapply okp_ind; [apply L2|reflexivity|unfold alike; cbn; auto 20|reflexivity].
           ++ cbn. split; [destruct (owed p (s_tr s2)); auto; discriminate|].
              exists m, tack, send, ack. rewrite T2. split; [eapply grows_in; eauto|auto].
        -- injection E as <- <-. right. apply AC; auto. exact Logic.I.
        -- injection E as <- <-. right. apply AC; auto. exact Logic.I.
      * destruct (accept p send ack s) as [ok1 s1] eqn:Ea.
        destruct (@accept_live h s rl sl p send ack ok1 s1 L Es Ea) as (L1 & J & G & M1).
        destruct ok1; injection E as <- <-; left; exists rl, sl; auto.
        apply live_alike; auto; [apply alike_mr|cbn; discriminate].
      * injection E as <- <-. right. apply AC; auto. exact Logic.I.
    + destruct (send =? exp_seq_o (s_px s p))%Z; injection E as <- <-; left; exists rl, sl.
      * unfold send_tack. apply send_plain; auto; [now apply tack_live|].
        cbn. apply (v_okp (tack_live p ack L) p).
      * unfold send_nack. apply send_plain; auto. cbn. apply (v_okp L p).
  - injection E as <- <-. left; eauto.
Qed.

Lemma updb_okp : forall h s rl sl, live cap h s rl sl -> forall p, okp cap p (s_px s p) (s_tr s) (rl p) (sl p).
Proof. intros h s rl sl L. apply L. Qed.

(** Taking a frame from the queue: its buffer is now in hand. *)
Lemma fetch_live : forall s rl sl p m l q, live cap [] s rl sl -> rl p = m :: l -> holds cap q l ->
  live cap [g_buf m] (setp p (with_rq q (s_px s p)) s) (updb rl p l) sl.
Proof.
  intros s rl sl p m l q L E H. destruct L as [Lc Ll Lk Lr Lb Lt Lg].
  constructor; cbn [s_crash s_live s_tr s_next s_timers s_retries setp]; auto.
  - intros r. destruct (bool_dec r p) as [->|N].
    + rewrite setp_same, updb_same. destruct (Lk p). constructor; cbn; auto.
      intros m' Hm. apply k_in. rewrite E. now right.
    + rewrite setp_other, updb_other by auto. apply Lk.
  - eapply bufs_perm; [exact Lb|]. unfold heldl, updb. destruct p; cbn; rewrite E; cbn; rewrite ?app_nil_r;
    apply Permutation_app_head; apply Permutation_app_head.
    + rewrite app_assoc. apply Permutation_cons_append.
    + apply Permutation_app_head. apply Permutation_cons_append.
Qed.

Lemma msg_inv : forall s rl sl p m ok s', live cap [g_buf m] s rl sl ->
  In (AIn p m) (s_tr s) -> frame_wf m -> handle_msg cap ora p m s = (ok, s') ->
  (exists rl sl, live cap [] s' rl sl) \/ dead cap [] s'.
Proof.
  intros s rl sl p m ok s' L Hin Hwf E. unfold handle_msg in E.
  destruct (parse_safe p Hwf) as (u & Hp & _). rewrite Hp in E.
  destruct (handle_pdu cap ora p u (g_buf m) s) as [ok1 s1] eqn:Eu. injection E as <- <-.
  assert ((exists rl sl, live cap [g_buf m] s1 rl sl) \/ dead cap [g_buf m] s1) as [(rl1 & sl1 & L1)|D1].
  { destruct u as [|ack|tack send ack y|]; cbn in Eu.
    - injection Eu as <- <-. left; eauto.
    - injection Eu as <- <-. left. exists rl, sl. now apply tack_live.
    - eapply data_inv; eauto.
    - injection Eu as <- <-. right. unfold error_ind. rewrite (v_live L). eapply close_dead; [eapply live_closable; eauto|exact Logic.I]. }
  - left. exists rl1, sl1. eapply live_free; eauto.
  - right. eapply dead_free; eauto.
Qed.

Lemma loop_inv : forall n p s ok s', (exists rl sl, live cap [] s rl sl) \/ dead cap [] s ->
  apmr_loop cap ora n p s = (ok, s') -> (exists rl sl, live cap [] s' rl sl) \/ dead cap [] s'.
Proof.
  induction n as [|n IH]; intros p s ok s' H E; cbn in E; [injection E as <- <-; auto|].
  destruct H as [(rl & sl & L)|D].
  2:{ rewrite (d_px D) in E. cbn in E. injection E as <- <-. auto. }
  destruct (mr (s_px s p)) eqn:Em; [injection E as <- <-; left; eauto| |].
  all: pose proof (k_rq (v_okp L p)) as Q; destruct (rl p) as [|m l] eqn:El;
    [rewrite (fetch_empty Q) in E; injection E as <- <-; left; eauto|];
    destruct (fetch_cons cap_pos Q) as (q & Eq & Hq); rewrite Eq in E;
    destruct (handle_msg cap ora p m (setp p (with_rq q (s_px s p)) s)) as [ok1 s1] eqn:Eh;
    destruct (k_in (v_okp L p) m) as (Hin & Hwf); [rewrite El; now left|];
    pose proof (fetch_live p L El Hq) as L1;
    pose proof (msg_inv p L1 Hin Hwf Eh) as [(rl1 & sl1 & L2)|D1];
    [rewrite (v_crash L2) in E|rewrite (d_crash D1) in E];
    (destruct ok1; [eapply IH; [|exact E]; eauto|injection E as <- <-; eauto]).
Qed.

Lemma apmr_inv : forall s, (exists rl sl, live cap [] s rl sl) \/ dead cap [] s ->
  (exists rl sl, live cap [] (apmr_periodic cap ora s) rl sl) \/ dead cap [] (apmr_periodic cap ora s).
Proof.
  intros s H. unfold apmr_periodic.
  destruct (apmr_loop cap ora _ false s) as [ok s1] eqn:E. apply loop_inv in E; auto.
  destruct ok; auto. destruct (apmr_loop cap ora _ true s1) as [ok s2] eqn:E2. apply loop_inv in E2; auto.
Qed.

Lemma live_ext : forall h s s' rl sl, live cap h s rl sl ->
  s_crash s' = s_crash s -> s_live s' = s_live s -> (forall p, s_px s' p = s_px s p) ->
  s_tr s' = s_tr s -> s_retries s' = s_retries s -> s_next s' = s_next s -> s_timers s' = s_timers s ->
  live cap h s' rl sl.
Proof.
  intros h s s' rl sl L E1 E2 E3 E4 E5 E6 E7. destruct L as [Lc Ll Lk Lr Lb Lt Lg].
  constructor; rewrite ?E1, ?E2, ?E4, ?E5, ?E6, ?E7; auto.
  - intros p. rewrite E3. apply Lk.
  - eapply bufs_perm; [exact Lb|]. unfold heldl. rewrite !E3. reflexivity.
Qed.

Lemma with_li_id : forall x, with_li (li x) x = x.
Proof. now intros []. Qed.

Lemma live_same : forall h s rl sl p l, live cap h (setp p (with_li l (s_px s p)) s) rl sl ->
  l = li (s_px s p) -> live cap h s rl sl.
Proof.
  intros h s rl sl p l L ->. eapply live_ext; [exact L| try reflexivity..].
  intros q. destruct (bool_dec q p) as [->|N]; [rewrite setp_same; now rewrite with_li_id|now rewrite setp_other].
Qed.

Lemma req_li : forall p c x s ok s', ms x = SOpen -> apms_req cap ora p c (setp p x s) = (ok, s') ->
  li (s_px s' p) = li x /\ lr (s_px s' p) = lr x.
Proof.
  intros p c x s ok s' M E. unfold apms_req in E. rewrite setp_same, M in E.
  unfold a_data_req in E. cbn -[Z.mul] in E. rewrite ?same_refl in E. cbn -[Z.mul] in E.
  destruct (o_alloc _), (o_sched _), (rta x) as [[]|]; cbn -[Z.mul] in E; injection E as <- <-;
    cbn; rewrite ?same_refl; cbn; auto.
Qed.

Lemma try_inv : forall p s ok s' rl sl, live cap [] s rl sl -> try_send cap ora p s = (ok, s') ->
  (exists rl sl, live cap [] s' rl sl) \/ (ok = true /\ crashed cap s').
Proof.
  intros p s ok s' rl sl L E. unfold try_send in E.
  destruct (li (s_px s p)) eqn:El; try (injection E as <- <-; left; eauto; fail).
  pose proof (k_sq (v_okp L p)) as Q. destruct (sl p) as [|a l] eqn:Es.
  { rewrite (fetch_empty Q) in E. injection E as <- <-. left; eauto. }
  destruct (fetch_cons cap_pos Q) as (q & Eq & Hq). rewrite Eq in E. injection E as <- <-.
  unfold send_internal.
  set (x := with_alseq _ _). set (c := FNotify a _).
  destruct (apms_req cap ora p c (setp p x s)) as [ok s'] eqn:Er.
  destruct (waiting p (s_tr s)) eqn:W.
  - right. split; auto.
    assert (B : ok = false /\ crashed cap s').
    { eapply req_busy with (sl1 := l) (x := x); eauto; unfold x; cbn; auto 20. unfold alike; cbn; auto 20. }
    destruct B as (-> & B). auto.
  - left. exists rl, (updb sl p l).
    assert (B : live cap [] (setp p (with_li (if ok then IAck else li x) (s_px s' p)) s') rl (updb sl p l)).
    { eapply req_live with (x := x); eauto; try reflexivity; unfold x; cbn; auto 20. unfold alike; cbn; auto 20. }
    destruct ok; [exact B|].
    eapply live_same; [exact B|]. symmetry. eapply req_li; [|exact Er]. pose proof (k_ms (v_okp L p)) as M. rewrite W in M. exact M.
Qed.

(** ** The remaining inputs *)

Lemma almpi_inv : forall s, inv [] s -> s_crash s = false -> inv [] (almpi_periodic cap ora s).
Proof.
  intros s H Hc. unfold almpi_periodic. destruct (s_enable s) eqn:En; auto.
  destruct H as [(rl & sl & L)|[D|C]]; [|now rewrite (d_en D) in En|now rewrite (c_crash C) in Hc].
  destruct (try_send cap ora true s) as [ok s1] eqn:E. apply (try_inv true L) in E.
  destruct E as [(rl1 & sl1 & L1)|(-> & C)]; [|right; right; auto].
  destruct ok; [left; eauto|].
  destruct (try_send cap ora false s1) as [ok s2] eqn:E. apply (try_inv false L1) in E.
  destruct E as [E|(_ & C)]; [left; auto|right; right; auto].
Qed.

Lemma periodic_inv : forall s, inv [] s -> s_crash s = false -> inv [] (periodic cap ora s).
Proof.
  intros s H Hc. unfold periodic. destruct (s_live s); auto.
  assert (H1 : (exists rl sl, live cap [] s rl sl) \/ dead cap [] s)
    by (destruct H as [H|[H|H]]; auto; rewrite (c_crash H) in Hc; discriminate).
  apply apmr_inv in H1. set (s1 := apmr_periodic cap ora s) in *. clearbody s1.
  destruct (s_crash s1) eqn:E; [|apply almpi_inv; auto]; destruct H1; [left|right; left|left|right; left]; auto.
Qed.

Lemma okp_ackret : forall x y tr rl sl d ok, okp cap true x tr rl sl -> lr x = LUserAck -> lr y = LTack ->
  alike (with_lr (lr y) x) y -> mr y = mr x -> okp cap true y (AAckRet d ok :: tr) rl sl.
Proof.
  intros x y tr rl sl d ok K X Y1 (A1 & A3 & A4 & A5 & A6 & A7 & A8 & A9 & A10 & A11 & A12) M.
  cbn in A1, A3, A4, A5, A6, A7, A8, A9, A10, A11, A12.
  constructor; cbn [waiting owed tacks taken sent pending agreed accepted handed notified confirmed clean];
    rewrite ?Y1, ?A1, ?A4, ?A5, ?A6, ?A7, ?A8, ?A9, ?A10, ?A11, ?A12, ?M; try apply K; auto.
  - pose proof (k_lr K) as Kl. rewrite X in Kl. destruct (owed true tr); cbn in *; try discriminate. reflexivity.
  - intros m Hm. destruct (k_in K m Hm). split; [cbn; auto|auto].
Qed.

Lemma okp_ackret_same : forall x tr rl sl d ok, okp cap true x tr rl sl -> lr x <> LUserAck ->
  okp cap true x (AAckRet d ok :: tr) rl sl.
Proof.
  intros x tr rl sl d ok K X.
  constructor; cbn [waiting owed tacks taken sent pending agreed accepted handed notified confirmed clean];
    try apply K; auto.
  - pose proof (k_lr K) as Kl. destruct (owed true tr); cbn in *; congruence.
  - intros m Hm. destruct (k_in K m Hm). split; [cbn; auto|auto].
Qed.

Lemma ack_inv : forall s rl sl d t, live cap [] s rl sl -> inv [] (alarm_ack cap ora d t s).
Proof.
  intros s rl sl d t L. unfold alarm_ack.
  assert (Same : lr (s_px s true) <> LUserAck -> inv [] (emit (AAckRet d false) s)).
  { intros N. left. exists rl, sl. destruct L as [Lc Ll Lk Lr Lb Lt Lg]. constructor; cbn; auto.
    - intros []; [apply okp_ackret_same; auto|apply okp_neutral; cbn; auto].
    }
  destruct (lr (s_px s true)) eqn:El; try (apply Same; discriminate). clear Same.
  set (x := with_alseq _ _).
  destruct (apms_req cap ora true (FAlAck d t) (setp true x s)) as [ok s'] eqn:Er.
  destruct (waiting true (s_tr s)) eqn:W.
  - assert (B : ok = false /\ crashed cap s').
    { eapply req_busy with (sl1 := sl true) (x := x); eauto; unfold x; cbn; auto 20;
        [unfold alike; cbn; auto 20|apply (v_okp L true)]. }
    destruct B as (_ & B). rewrite (c_crash B). right; right; auto.
  - assert (B : live cap [] (setp true (with_li (li x) (s_px s' true)) s') rl (updb sl true (sl true))).
    { eapply req_live with (x := x) (c := FAlAck d t); eauto; unfold x; cbn; auto 20;
        [unfold alike; cbn; auto 20|apply (v_okp L true)|discriminate]. }
    pose proof (k_ms (v_okp L true)) as M. rewrite W in M.
    destruct (@req_li true (FAlAck d t) x s ok s' M Er) as (R1 & R2).
    apply live_same in B; auto. rewrite (v_crash B). left. exists rl, (updb sl true (sl true)).
    assert (L2 : live cap [] s' rl (updb sl true (sl true))) by exact B. clear B.
    apply live_obs with (p := true) (y := with_lr LTack (s_px s' true)) (o := AAckRet d ok); auto; try exact Logic.I.
    + eapply okp_ackret; [apply L2| | reflexivity | unfold alike; cbn; auto 20 | reflexivity]. rewrite R2. exact El.
    + reflexivity.
Qed.

Lemma refuse_inv : forall s p a, inv [] s -> s_crash s = false -> inv [] (emit (ARefuse p a) s).
Proof.
  intros s p a [(rl & sl & L)|[D|C]] Hc.
  - left. exists rl, sl. apply live_emit; cbn; auto.
  - right; left. destruct D. constructor; cbn; auto using bufs_other.
  - now rewrite (c_crash C) in Hc.
Qed.

Lemma okp_accept : forall p x y tr rl sl a q, okp cap p x tr rl sl -> y = with_sq q x ->
  holds cap q (sl ++ [a]) -> okp cap p y (AAccept p a :: tr) rl (sl ++ [a]).
Proof.
  intros p x y tr rl sl a q K -> H. destruct K.
  constructor; cbn [waiting owed tacks taken sent pending agreed accepted handed notified confirmed clean
                    ms mr li lr send_seq send_seq_o exp_seq exp_seq_o rta resend rq sq with_sq];
    rewrite ?same_refl; auto.
  - rewrite k_acc. now rewrite app_assoc.
  - intros m Hm. destruct (k_in m Hm). split; [cbn; auto|auto].
Qed.

Lemma alarm_inv : forall s rl sl p a, live cap [] s rl sl -> inv [] (send_alarm cap max_payload p a s).
Proof.
  intros s rl sl p a L. unfold send_alarm.
  assert (Rf : inv [] (emit (ARefuse p a) s)) by (apply refuse_inv; [left; eauto|apply L]).
  destruct (negb (s_enable s) || _ || _); auto.
  pose proof (v_okp L p) as K. pose proof (k_sq K) as Q.
  destruct (le_lt_dec cap (length (sl p))) as [F|F].
  - rewrite (post_full cap_pos a Q F). auto.
  - destruct (post_room cap_pos a Q F) as (q & -> & Hq). left. exists rl, (updb sl p (sl p ++ [a])).
    destruct L as [Lc Ll Lk Lr Lb Lt Lg].
    constructor; cbn [s_crash s_live s_tr s_next s_timers s_retries setp emit agreed]; auto.
    + intros r. cbn [s_px emit]. destruct (bool_dec r p) as [->|N].
      * rewrite setp_same, updb_same. eapply okp_accept; eauto.
      * rewrite setp_other, updb_other by auto. apply okp_neutral; cbn; auto.
    + apply bufs_other; [exact Logic.I|]. change (heldl (emit (AAccept p a) (setp p (with_sq q (s_px s p)) s)) rl [])
        with (heldl (setp p (with_sq q (s_px s p)) s) rl []). rewrite heldl_setp; auto.
    + cbn [always]. split; auto. cbn. rewrite (k_acc K), app_length. lia.
Qed.

Lemma okp_in : forall p x tr rl sl m q, okp cap p x tr rl sl -> frame_wf m ->
  holds cap q (rl ++ [m]) -> okp cap p (with_rq q x) (AIn p m :: tr) (rl ++ [m]) sl.
Proof.
  intros p x tr rl sl m q K W H. destruct K.
  constructor; cbn [waiting owed tacks taken sent pending agreed accepted handed notified confirmed clean
                    ms mr li lr send_seq send_seq_o exp_seq exp_seq_o rta resend rq sq with_rq]; auto.
  intros m' Hm. apply in_app_or in Hm. destruct Hm as [Hm|[<-|[]]]; cbn; auto. destruct (k_in m' Hm). auto.
Qed.

Lemma rej_inv : forall s p, inv [] s -> s_crash s = false -> inv [] (emit (ARej p (s_next s)) (bump s)).
Proof.
  intros s p [(rl & sl & L)|[D|C]] Hc.
  - left. exists rl, sl. apply live_emit; cbn; auto. destruct L. constructor; cbn; auto using bufs_next, tmok_next.
  - right; left. destruct D. constructor; cbn; auto using tmok_next. apply bufs_other; [exact Logic.I|auto using bufs_next].
  - now rewrite (c_crash C) in Hc.
Qed.

Lemma frame_inv : forall s p bytes idpos, inv [] s -> s_crash s = false ->
  Forall byte bytes -> (Z.of_nat (length bytes) < 65536)%Z -> inv [] (frame_in cap p bytes idpos s).
Proof.
  intros s p bytes idpos H Hc W1 W2. unfold frame_in. cbn [s_live bump s_px].
  destruct (s_live s) eqn:El; [|now apply rej_inv].
  pose proof H as [(rl & sl & L)|[D|C]]; [|now rewrite (d_live D) in El|now rewrite (c_crash C) in Hc].
  pose proof (v_okp L p) as K. pose proof (k_rq K) as Q. set (m := mkMsg (s_next s) bytes idpos).
  destruct (le_lt_dec cap (length (rl p))) as [F|F].
  - rewrite (post_full cap_pos m Q F). now apply rej_inv.
  - destruct (post_room cap_pos m Q F) as (q & -> & Hq). left. exists (updb rl p (rl p ++ [m])), sl.
    destruct L as [Lc Ll Lk Lr Lb Lt Lg].
    constructor; cbn [s_crash s_live s_tr s_next s_timers s_retries setp emit agreed bump]; auto.
    + intros r. cbn [s_px emit]. destruct (bool_dec r p) as [->|N].
      * rewrite setp_same, updb_same. apply okp_in; auto. split; auto.
      * rewrite setp_other, updb_other by auto. apply okp_neutral; cbn; auto.
    + eapply bufs_perm; [apply bufs_in with (m := m); [exact Lb|reflexivity]|].
      unfold heldl, updb. destruct p; cbn; rewrite ?map_app, ?app_nil_r; cbn.
      * rewrite !app_assoc. rewrite <- !app_assoc. rewrite Permutation_middle.
        apply Permutation_app_head. rewrite Permutation_middle. apply Permutation_app_head.
        rewrite Permutation_middle. apply Permutation_app_head. reflexivity.
      * rewrite Permutation_middle. apply Permutation_app_head. rewrite Permutation_middle. apply Permutation_app_head.
        rewrite Permutation_middle. apply Permutation_app_head. apply Permutation_cons_append.
    + now apply tmok_next.
    + cbn [always]. split; auto. exact Logic.I.
Qed.

Lemma activate_inv : forall s r f n, dead cap [] s -> inv [] (activate r f n s).
Proof.
  intros s r f n D. left. exists (fun _ => []), (fun _ => []).
  constructor; cbn [activate s_crash s_live s_tr s_next s_timers s_retries s_px agreed]; try apply D; auto.
  - intros p. constructor; cbn; auto; try discriminate; try congruence; try (apply holds_new; auto); try contradiction.
  - cbn [always]. split; [exact Logic.I|apply D].
Qed.

Definition input_ok (e : input) : Prop :=
  match e with
  | XFrame _ bytes _ => Forall byte bytes /\ (Z.of_nat (length bytes) < 65536)%Z
  | _ => True
  end.

Lemma step_inv : forall e s, inv [] s -> input_ok e -> inv [] (step cap max_payload ora e s).
Proof.
  intros e s H I. unfold step. destruct (s_crash s) eqn:Hc; auto.
  destruct e; cbn in I.
  - destruct (s_live s) eqn:El; auto. destruct H as [(rl & sl & L)|[D|C]].
    + now rewrite (v_live L) in El.
    + now apply activate_inv.
    + now rewrite (c_crash C) in Hc.
  - destruct (s_live s) eqn:El; auto. destruct H as [(rl & sl & L)|[D|C]].
    + left. exists rl, sl. eapply live_ext; [exact L|cbn; auto..].
    + now rewrite (d_live D) in El.
    + now rewrite (c_crash C) in Hc.
  - destruct (s_live s) eqn:El; auto. destruct H as [(rl & sl & L)|[D|C]].
    + right; left. eapply close_dead; [eapply live_closable; eauto|exact Logic.I].
    + now rewrite (d_live D) in El.
    + now rewrite (c_crash C) in Hc.
  - destruct (s_live s) eqn:El; [|now apply refuse_inv]. destruct H as [(rl & sl & L)|[D|C]].
    + eapply alarm_inv; eauto.
    + now rewrite (d_live D) in El.
    + now rewrite (c_crash C) in Hc.
  - destruct (s_live s) eqn:El.
    + destruct H as [(rl & sl & L)|[D|C]].
      * eapply ack_inv; eauto.
      * now rewrite (d_live D) in El.
      * now rewrite (c_crash C) in Hc.
    + destruct H as [(rl & sl & L)|[D|C]].
      * now rewrite (v_live L) in El.
      * right; left. destruct D. constructor; cbn; auto.
      * now rewrite (c_crash C) in Hc.
  - apply frame_inv; tauto.
  - now apply periodic_inv.
  - destruct (find _ _) as [[u p]|]; auto. now apply timeout_inv.
Qed.

Lemma run_inv : forall es s, inv [] s -> Forall input_ok es -> inv [] (run cap max_payload ora es s).
Proof.
  induction es as [|e es IH]; intros s H F; cbn; auto. inversion F; subst. apply IH; auto. now apply step_inv.
Qed.

Lemma inv_st0 : inv [] st0.
Proof.
  right; left. constructor; cbn; auto.
  - unfold bufs, occ. repeat split; cbn; auto.
  - unfold tmok; cbn. split; [constructor|contradiction].
Qed.

Lemma reach_inv : forall es, Forall input_ok es -> inv [] (run cap max_payload ora es st0).
Proof. intros es F. apply run_inv; auto using inv_st0. Qed.

Lemma inv_good : forall h s, inv h s -> always (good cap) (s_tr s).
Proof. intros h s [(rl & sl & L)|[D|C]]; [apply L|apply D|apply C]. Qed.
End Inv.
