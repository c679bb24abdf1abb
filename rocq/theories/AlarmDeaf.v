(** The receiver of alarms stops only after a notification that is cut off. *)
From Coq Require Import List ZArith Arith Bool Lia.
From Verif Require Import Base BlockModel BlockReadLemmas AlarmModel AlarmSpec AlarmRing AlarmLemmas AlarmInv AlarmParse.
Import ListNotations.
Set Implicit Arguments.
Open Scope nat_scope.

Definition act (o : obs) : bool := match o with AActivate _ _ _ | AIn _ _ => true | _ => false end.

(** What most functions do to the part of the state that matters here: the
    queue of received frames and the state of the receiver stay, or the
    connection is closed. *)
Definition ext (s s' : st) : Prop := (s_crash s' = false -> s_crash s = false) /\ forall p,
  received p (s_tr s') = received p (s_tr s) /\
  ((q_items (rq (s_px s' p)) = q_items (rq (s_px s p)) /\ mr (s_px s' p) = mr (s_px s p)) \/
   ((forall i, q_items (rq (s_px s' p)) i = None) /\ mr (s_px s' p) = RClosed)).

Lemma ext_refl : forall s, ext s s.
Proof. intros s. split; [auto|]. intros p. split; [reflexivity|auto]. Qed.
Lemma ext_trans : forall a b c, ext a b -> ext b c -> ext a c.
Proof.
  intros a b c (C1 & H1) (C2 & H2). split; [auto|]. intros p. destruct (H1 p) as (I1 & K1), (H2 p) as (I2 & K2).
  split; [congruence|].
  destruct K2 as [(K2 & M2)|K2]; [|auto]. rewrite K2, M2. auto.
Qed.
Lemma received_cons : forall p o tr, act o = false -> received p (o :: tr) = received p tr.
Proof.
  intros p o tr H. destruct o; try discriminate; auto.
Qed.
Lemma ext_emit : forall o s s', act o = false -> ext s s' -> ext s (emit o s').
Proof.
  intros o s s' H E. eapply ext_trans; [exact E|]. split; [cbn; auto; discriminate|]. intros p. split; [now apply received_cons|cbn; auto].
Qed.
Lemma ext_crash : forall s s', ext s s' -> ext s (crash s').
Proof. intros s s' E. eapply ext_trans; [exact E|]. split; [cbn; auto; discriminate|]. intros p. split; [reflexivity|cbn; auto]. Qed.
Lemma ext_setp : forall p x s s', ext s s' -> q_items (rq x) = q_items (rq (s_px s' p)) -> mr x = mr (s_px s' p) ->
  ext s (setp p x s').
Proof.
  intros p x s s' E H1 H2. eapply ext_trans; [exact E|]. split; [cbn; auto; discriminate|]. intros q. split; [reflexivity|]. left. cbn.
  destruct (Bool.eqb q p) eqn:Q; auto. apply eqb_prop in Q. subst q. auto.
Qed.
Lemma ext_bump : forall s s', ext s s' -> ext s (bump s').
Proof. auto. Qed.
Lemma ext_timers : forall l s s', ext s s' -> ext s (settimers l s').
Proof. auto. Qed.

Lemma eqb_sym_neq : forall q p, Bool.eqb q p = false -> Bool.eqb p q = false.
Proof. intros [] []; auto. Qed.

Section Deaf.
Variable cap maxp : nat.
Variable ora : nat -> answer.

Ltac ex := repeat (first [apply ext_refl | assumption | apply ext_emit; [reflexivity|] | apply ext_crash
  | apply ext_bump | apply ext_timers
  | apply ext_setp; [| cbn; rewrite ?eqb_reflx; reflexivity | cbn; rewrite ?eqb_reflx; reflexivity]]).

Lemma ext_req : forall p f s s', ext s s' -> ext s (snd (a_data_req ora p f s')).
Proof.
  intros p f s s' E. unfold a_data_req. destruct (o_alloc _); cbn [snd]; [|ex].
  destruct (f_tack f); [|ex]. destruct (rta _) as [[]|]; ex.
Qed.
Lemma ext_free : forall p s s', ext s s' -> ext s (free_rta p s').
Proof. intros p s s' E. unfold free_rta. destruct (rta _) as [[]|]; ex. Qed.
Lemma ext_frees : forall (l : list rmsg) s s', ext s s' ->
  ext s (fold_left (fun s m => emit (AFree (g_buf m)) s) l s').
Proof. induction l as [|m l IH]; intros s s' E; cbn; [exact E|]. apply IH. ex. Qed.
Lemma ext_close_px : forall p s s', ext s s' -> ext s (close_px cap p s').
Proof.
  intros p s s' E. unfold close_px.
  assert (A : forall t, ext s t -> ext s (free_rta p t)) by (intros; now apply ext_free).
  destruct (mr (s_px s' p)), (ms (s_px s' p)); try apply ext_frees; apply A; ex.
Qed.
Lemma ext_close : forall w s s', ext s s' -> ext s (close cap ora w s').
Proof.
  intros w s s' E.
  assert (A : ext s (close_px cap true (close_px cap false
    match ms (s_px (emit (AAbort w) s') false) with SClosed => emit (AAbort w) s'
    | _ => snd (a_data_req ora false (mkFrame FErr false (send_seq (s_px (emit (AAbort w) s') false)) (exp_seq_o (s_px (emit (AAbort w) s') false))) (emit (AAbort w) s')) end))).
  { apply ext_close_px, ext_close_px. destruct (ms _); [ex|apply ext_req; ex..]. }
  eapply ext_trans; [exact A|]. split; [cbn; auto|]. intros p. split; [reflexivity|]. right. split; reflexivity.
Qed.
Lemma ext_error : forall w s s', ext s s' -> ext s (error_ind cap ora w s').
Proof. intros w s s' E. unfold error_ind. destruct (s_live s'); [now apply ext_close|ex]. Qed.
Lemma ext_cnf : forall p s s', ext s s' -> ext s (cnf_pos p s').
Proof. intros p s s' E. unfold cnf_pos. destruct (lr _); ex. Qed.
Lemma ext_cnf_neg : forall s s', ext s s' -> ext s (cnf_neg cap ora s').
Proof.
  intros s s' E. unfold cnf_neg. pose proof (ext_error WBusy E) as X. destruct (s_live _); ex.
Qed.
Lemma ext_apms : forall p c s s', ext s s' -> ext s (snd (apms_req cap ora p c s')).
Proof.
  intros p c s s' E. unfold apms_req. destruct (ms _); cbn [snd]; try (apply ext_cnf_neg; ex).
  destruct (a_data_req ora p _ _) as [ok s1] eqn:A.
  assert (E1 : ext s s1). { replace s1 with (snd (ok, s1)) by reflexivity. rewrite <- A. apply ext_req. ex. }
  cbn zeta. destruct (o_sched _); cbn [snd]; ex.
Qed.
Lemma ext_timeout : forall t p s s', ext s s' -> ext s (timeout cap ora t p s').
Proof.
  intros t p s s' E. unfold timeout. destruct (ms _); try (apply ext_free; ex).
  destruct (rta _) as [[b f]|]; [|ex]. destruct (resend _); [apply ext_error; ex|].
  destruct (o_sched _); ex.
Qed.
Lemma ext_tack : forall p ack s s', ext s s' -> ext s (tack_ind p ack s').
Proof.
  intros p ack s s' E. unfold tack_ind. destruct (ms _); auto. destruct (_ =? _)%Z; auto.
  assert (A : ext s (cnf_pos p (free_rta p (emit (ATack p ack)
    (setp p (with_send (next_seq (send_seq (s_px s' p))) (send_seq (s_px s' p)) (s_px s' p)) s'))))).
  { apply ext_cnf, ext_free. ex. }
  cbv zeta. set (s1 := cnf_pos _ _) in *. clearbody s1. ex.
Qed.
Lemma ext_alpmi : forall p t s s', ext s s' -> ext s (alpmi_data p t s').
Proof. intros p t s s' E. unfold alpmi_data. destruct (li _); ex. Qed.
Lemma ext_alpmr : forall p d usi len pos b s s', ext s s' -> ext s (snd (alpmr_data cap ora p d usi len pos b s')).
Proof. intros p d usi len pos b s s' E. unfold alpmr_data. destruct (lr _); cbn [snd]; try (apply ext_error); ex. Qed.
Lemma ext_try : forall p s s', ext s s' -> ext s (setp p (with_sq (snd (ring_fetch cap (sq (s_px s' p)))) (s_px s' p)) s').
Proof. intros. ex. Qed.
Lemma ext_send : forall p a x s s', ext s (setp p x s') -> q_items (rq x) = q_items (rq (s_px s' p)) -> mr x = mr (s_px s' p) ->
  ext s s' -> ext s (send_internal cap ora p a x s').
Proof.
  intros p a x s s' _ H1 H2 E. unfold send_internal.
  destruct (apms_req cap ora p _ _) as [ok s1] eqn:A.
  assert (E1 : ext s s1).
  { replace s1 with (snd (ok, s1)) by reflexivity. rewrite <- A. apply ext_apms. apply ext_setp; auto. }
  destruct ok; ex.
Qed.
Lemma ext_almpi : forall s s', ext s s' -> ext s (almpi_periodic cap ora s').
Proof.
  assert (T : forall p s s', ext s s' -> ext s (snd (try_send cap ora p s'))).
  { intros p s s' E. unfold try_send. destruct (li _); cbn [snd]; auto.
    destruct (ring_fetch cap _) as [[a|] q]; cbn [snd]; auto. apply ext_send; auto. ex. }
  intros s s' E. unfold almpi_periodic. destruct (s_enable s'); auto.
  destruct (try_send cap ora true s') as [ok s1] eqn:A.
  assert (E1 : ext s s1). { replace s1 with (snd (ok, s1)) by reflexivity. rewrite <- A. now apply T. }
  destruct ok; auto.
Qed.
Lemma ext_ack : forall d t s s', ext s s' -> ext s (alarm_ack cap ora d t s').
Proof.
  intros d t s s' E. unfold alarm_ack. destruct (lr _); try (ex; fail).
  destruct (apms_req cap ora true _ _) as [ok s1] eqn:A.
  assert (E1 : ext s s1). { replace s1 with (snd (ok, s1)) by reflexivity. rewrite <- A. apply ext_apms. ex. }
  destruct (s_crash s1); ex.
Qed.
Lemma ext_alarm : forall p a s s', ext s s' -> ext s (send_alarm cap maxp p a s').
Proof.
  intros p a s s' E. unfold send_alarm. destruct (_ || _ || _); [ex|].
  destruct (ring_post cap a _) as [[] q]; ex.
Qed.

(** ** The invariant *)

Definition cutp (p : bool) (m : rmsg) : Prop :=
  exists n k, parse p m = Ok (PData true n k BNotifyBad).
Definition hears (s : st) : Prop := s_crash s = false -> forall p,
  (forall i m, q_items (rq (s_px s p)) i = Some m -> In m (received p (s_tr s))) /\
  (mr (s_px s p) = RWcnf -> exists m, In m (received p (s_tr s)) /\ cutp p m) /\
  (forall m, In m (received p (s_tr s)) -> frame_wf m).

Lemma hears_ext : forall s s', hears s -> ext s s' -> hears s'.
Proof.
  intros s s' H (E0 & E) C p. destruct (H (E0 C) p) as (H1 & H2 & H3), (E p) as (E1 & E2). rewrite E1.
  destruct E2 as [(E2 & E3)|(E2 & E3)].
  - rewrite E2, E3. auto.
  - split; [|split]; auto; [intros i m X; rewrite E2 in X; discriminate|congruence].
Qed.

(** The same, except that the receiver of one priority may be in another
    state. *)
(** The same, except that the receiver of one priority may be in another
    state. *)
Lemma hears_mr : forall p s s' v, hears s -> ext s s' ->
  (v = RWcnf -> exists m, In m (received p (s_tr s')) /\ cutp p m) ->
  hears (setp p (with_mr v (s_px s' p)) s').
Proof.
  intros p s s' v H E Hv C q. pose proof (hears_ext H E C q) as (H1 & H2 & H3). cbn.
  destruct (Bool.eqb q p) eqn:Q; [|auto]. apply eqb_prop in Q. subst q. cbn. auto.
Qed.

(** The receiver is busy only in between. *)
Lemma hears_between : forall p s s1 s3, hears s -> ext s s1 ->
  ext (setp p (with_mr RWcnf (s_px s1 p)) s1) s3 -> hears (setp p (with_mr ROpen (s_px s3 p)) s3).
Proof.
  intros p s s1 s3 H A (X0 & X) C q. destruct (X q) as (X1 & X2). pose proof (hears_ext H A (X0 C) q) as (G1 & G2 & G3).
  cbn in X1, X2 |- *. destruct (Bool.eqb q p) eqn:Q; cbn.
  - apply eqb_prop in Q. subst q. rewrite X1. split; [|split; [discriminate|auto]].
    intros i m Hi. apply (G1 i).
    destruct X2 as [(X2 & _)|(X2 & _)]; [|rewrite X2 in Hi; discriminate].
    rewrite X2 in Hi. exact Hi.
  - destruct X2 as [(X2 & X3)|(X2 & X3)].
    + rewrite X1, X2, X3. auto.
    + rewrite X1. split; [|split]; auto; [intros i m Hi; rewrite X2 in Hi; discriminate|congruence].
Qed.

Lemma hears_error : forall w s s1, hears s -> ext s s1 -> forall p v, hears (error_ind cap ora w (setp p (with_mr v (s_px s1 p)) s1)).
Proof.
  intros w s s1 H A p v C q. set (s2 := setp p _ s1) in *.
  assert (E2 : forall r, received r (s_tr s2) = received r (s_tr s)) by (intros r; apply (proj2 A r)).
  assert (C2 : s_crash s2 = false -> s_crash s = false) by (intros X; now apply (proj1 A)).
  clearbody s2. unfold error_ind in *. destruct (s_live s2) eqn:L; [|discriminate].
  destruct (ext_close w (ext_refl s2)) as (E0 & E1). destruct (H (C2 (E0 C)) q) as (_ & _ & G).
  destruct (E1 q) as (E3 & _). rewrite E3, E2. cbn. split; [discriminate|split; [discriminate|exact G]].
Qed.
Lemma hears_error0 : forall w s, hears s -> hears (error_ind cap ora w s).
Proof. intros w s H. eapply hears_ext; [exact H|]. apply ext_error, ext_refl. Qed.

Lemma hears_data : forall p tack send ack y b s, hears s ->
  (tack = true -> y = BNotifyBad -> exists m, In m (received p (s_tr s)) /\ cutp p m) ->
  hears (snd (data_ind cap ora p tack send ack y b s)).
Proof.
  intros p tack send ack y b s H Hb. unfold data_ind.
  destruct (mr (s_px s p)) eqn:Em; cbn [snd]; auto.
  destruct tack; cbn [negb snd]; auto.
  destruct (_ =? _)%Z.
  - set (a := send_tack ora p _).
    assert (A : ext s (snd a)). { unfold a, send_tack. apply ext_req. pose proof (ext_tack p ack (ext_refl s)). ex. }
    destruct y as [t|d usi len pos| |]; cbn [snd]; try (apply hears_error0; exact H);
      destruct a as [ok s1]; cbn [snd] in A; (destruct ok; cbn [snd]; [|eapply hears_ext; eauto]).
    + eapply hears_between; eauto. apply ext_alpmi, ext_refl.
    + set (s2 := setp p (with_mr RWcnf (s_px s1 p)) s1).
      assert (X : ext s2 (snd (alpmr_data cap ora p d usi len pos b s2))) by apply ext_alpmr, ext_refl.
      assert (Y : fst (alpmr_data cap ora p d usi len pos b s2) = false ->
                  hears (snd (alpmr_data cap ora p d usi len pos b s2))).
      { unfold alpmr_data. destruct (lr (s_px s2 p)); try discriminate; intros _; eapply hears_error; eauto. }
      destruct (alpmr_data cap ora p d usi len pos b s2) as [[] s3]; cbn [fst snd] in *; auto.
      eapply hears_between; eauto.
    + eapply hears_mr; eauto. intros _. destruct (Hb eq_refl eq_refl) as (m & M1 & M2). exists m. split; auto.
      destruct A as (_ & A). destruct (A p) as (-> & _). auto.
  - destruct (_ =? _)%Z; cbn [snd]; (eapply hears_ext; [exact H|]); apply ext_req; [apply ext_tack|]; apply ext_refl.
Qed.

Lemma hears_msg : forall p m s, hears s -> In m (received p (s_tr s)) -> hears (snd (handle_msg cap ora p m s)).
Proof.
  intros p m s H Hin. unfold handle_msg.
  destruct (parse p m) as [u| |] eqn:E; try (intros C; discriminate C).
  destruct (handle_pdu cap ora p u (g_buf m) s) as [ok s1] eqn:Eu. cbn [snd].
  eapply hears_ext; [|apply ext_emit; [reflexivity|apply ext_refl]].
  replace s1 with (snd (ok, s1)) by reflexivity. rewrite <- Eu.
  destruct u as [|ack|tack send ack y|]; cbn [handle_pdu snd]; auto.
  - eapply hears_ext; [exact H|]. apply ext_tack, ext_refl.
  - apply hears_data; auto. intros -> ->. exists m. split; auto. exists send, ack. exact E.
  - now apply hears_error0.
Qed.

Lemma hears_loop : forall n p s, hears s -> s_crash s = false -> hears (snd (apmr_loop cap ora n p s)).
Proof.
  induction n as [|n IH]; intros p s H Cr; cbn; auto.
  assert (G : hears (snd (let '(o, q) := ring_fetch cap (rq (s_px s p)) in
          match o with
          | None => (true, s)
          | Some m =>
              let '(ok, s) := handle_msg cap ora p m (setp p (with_rq q (s_px s p)) s) in
              if s_crash s then (false, s)
              else if ok then apmr_loop cap ora n p s else (false, s)
          end))).
  { destruct (H Cr p) as (H1 & H2 & H3).
    unfold ring_fetch. destruct (q_avail _); cbn [negb]; auto. destruct (_ =? 0); auto.
    destruct (q_items (rq (s_px s p)) (q_rd (rq (s_px s p)))) as [m|] eqn:Ei; auto.
    set (s1 := setp p _ s).
    assert (Hs1 : hears s1).
    { intros _ q. unfold s1. cbn. destruct (Bool.eqb q p) eqn:Q; [|apply H; auto].
      apply eqb_prop in Q. subst q. cbn. split; [|auto]. intros i m' Hi. unfold upd in Hi.
      destruct (i =? _); [discriminate|eauto]. }
    pose proof (@hears_msg p m s1 Hs1 (H1 _ _ Ei)) as G.
    destruct (handle_msg cap ora p m s1) as [ok s2]. cbn [snd] in G.
    destruct (s_crash s2) eqn:C2; auto. destruct ok; auto. }
  destruct (mr (s_px s p)); auto.
Qed.

Lemma loop_ok : forall n p s s', s_crash s = false -> apmr_loop cap ora n p s = (true, s') -> s_crash s' = false.
Proof.
  induction n as [|n IH]; intros p s s' C E; cbn in E; [now injection E as <-|].
  destruct (mr (s_px s p)); [now injection E as <-| |];
    (destruct (ring_fetch cap (rq (s_px s p))) as [[m|] q]; [|now injection E as <-];
     destruct (handle_msg cap ora p m _) as [ok s1]; destruct (s_crash s1) eqn:C1; [discriminate|];
     destruct ok; [eauto|discriminate]).
Qed.

Lemma hears_step : forall e s, hears s -> input_ok e -> hears (step cap maxp ora e s).
Proof.
  intros e s H Io. unfold step. destruct (s_crash s) eqn:Cr; auto. destruct e.
  - destruct (s_live s); auto. intros C p. cbn. split; [|split]; [discriminate..|contradiction].
  - destruct (s_live s); auto. intros C p. exact (H Cr p).
  - destruct (s_live s); auto. eapply hears_ext; [exact H|]. apply ext_close, ext_refl.
  - destruct (s_live s); (eapply hears_ext; [exact H|]); [apply ext_alarm, ext_refl|ex].
  - destruct (s_live s); (eapply hears_ext; [exact H|]); [apply ext_ack, ext_refl|ex].
  - unfold frame_in. cbn [s_live bump s_px].
    destruct (s_live s); [|eapply hears_ext; [exact H|ex]].
    unfold ring_post. destruct (q_avail _); cbn [negb]; [|eapply hears_ext; [exact H|ex]].
    destruct (cap <=? _); [eapply hears_ext; [exact H|ex]|].
    intros C q. destruct (H Cr q) as (H1 & H2 & H3). cbn. destruct (Bool.eqb q p) eqn:Q.
    + apply eqb_prop in Q. subst q. rewrite eqb_reflx. cbn. split; [|split].
      * intros i m Hi. unfold upd in Hi. destruct (i =? _); [injection Hi as <-; auto|eauto].
      * intros Hm. destruct (H2 Hm) as (m & M1 & M2). exists m. auto.
      * intros m [<-|Hm]; auto.
    + rewrite eqb_sym_neq by exact Q. auto.
  - unfold periodic. destruct (s_live s); auto.
    assert (A : hears (apmr_periodic cap ora s)).
    { unfold apmr_periodic. destruct (apmr_loop cap ora _ false s) as [ok s1] eqn:E1.
      assert (H1 : hears s1).
      { replace s1 with (snd (ok, s1)) by reflexivity. rewrite <- E1. now apply hears_loop. }
      destruct ok; auto. destruct (s_crash s1) eqn:C1; [|now apply hears_loop].
      apply loop_ok in E1; auto. congruence. }
    destruct (s_crash (apmr_periodic cap ora s)); auto. eapply hears_ext; [exact A|]. apply ext_almpi, ext_refl.
  - destruct (find _ _) as [[u p]|]; auto. eapply hears_ext; [exact H|]. apply ext_timeout, ext_refl.
Qed.

Lemma hears_run : forall es s, hears s -> Forall input_ok es -> hears (run cap maxp ora es s).
Proof.
  induction es as [|e es IH]; intros s H F; cbn; auto. inversion F; subst. apply IH; auto. now apply hears_step.
Qed.

Lemma hears_reach : forall es p, Forall input_ok es ->
  let s := run cap maxp ora es st0 in s_crash s = false -> mr (s_px s p) = RWcnf ->
  exists m, In m (received p (s_tr s)) /\ cut p (g_bytes m) (u16 (g_idpos m + 2)).
Proof.
  intros es p F s C M. assert (H : hears s).
  { apply hears_run; auto. intros _ q. cbn. split; [|split]; [discriminate..|contradiction]. }
  destruct (H C p) as (_ & H2 & H3). destruct (H2 M) as (m & M1 & n & k & M2). exists m. split; auto.
  eapply parse_cut; eauto.
Qed.
End Deaf.
