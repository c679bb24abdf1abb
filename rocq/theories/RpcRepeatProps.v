(** C93: repetitions. *)
From Coq Require Import List ZArith Arith Bool Lia.
From Verif Require Import Base CpmModel CpmProps PpmModel PpmProps BlockModel BlockReadLemmas BlockReadProps BlockWriteProps RpcModel RpcLemmas RpcInv RpcStep RpcProps RpcFrame RpcIdent RpcAnswer RpcReply RpcReplyProps.
Import ListNotations.
Local Open Scope Z_scope.

(** * Specification *)

(** Session [k] of connection [i] waits for an answer to message [m]. *)
Definition waiting (c : cfg) (st : net) (k i : nat) (m : list Z) : Prop :=
  let s := sess_at c st k in
  s_used s = true /\ s_resend s = true /\ s_ar s = Some i /\ 0 <= s_socket s /\ firstn (Z.to_nat (s_send_len s)) (s_out s) = m /\ ar_at st i <> None.

(** Nothing happens in session [k] of connection [i] except that its timer expires [n] times. *)
Inductive silence (c : cfg) (k i : nat) : nat -> net -> list ev -> net -> Prop :=
| silence_end : forall st, silence c k i 0 st [] st
| silence_other : forall n x st st1 e1 e st2, input_ok x -> step c x st = Ok (st1, e1) -> sess_at c st1 k = sess_at c st k -> ar_at st1 i = ar_at st i -> sent_by k e1 = [] ->
    silence c k i n st1 e st2 -> silence c k i n st (e1 ++ e) st2
| silence_expire : forall n o st st1 e1 e st2, input_ok (IResend k, o) -> o_sent o = true -> o_timer o = true -> step c (IResend k, o) st = Ok (st1, e1) ->
    silence c k i n st1 e st2 -> silence c k i (S n) st (e1 ++ e) st2.

(** * Proof: a running timer means that at most two transmissions are left *)
Definition tmr (s : sess) : Prop := s_resend s = true -> s_counter s <= 2.
Definition tmrs (c : cfg) (st : net) : Prop := forall j, tmr (sess_at c st j).

Lemma tmr_quiet : forall s, s_resend s = false -> tmr s.
Proof. intros s Q R. congruence. Qed.
Lemma tmr_blank : forall c, tmr (blank c).
Proof. intros c. apply tmr_quiet. reflexivity. Qed.
Lemma tmrs_set : forall c st k s, tmrs c st -> tmr s -> tmrs c (set_sess st k s).
Proof.
  intros c st k s T S1 j. destruct (Nat.lt_ge_cases k (length (n_sess st))) as [L|L].
  - rewrite sess_at_set by exact L. destruct (Nat.eqb j k); [exact S1|apply T].
  - destruct (Nat.eq_dec j k) as [->|J]; [|rewrite sess_at_set_other by exact J; apply T].
    unfold sess_at. rewrite nth_overflow by (rewrite length_set_sess; exact L). apply tmr_blank.
Qed.
Lemma release_tmr : forall c k st, tmrs c st -> tmrs c (fst (release c k st)).
Proof. intros c k st T. unfold release. destruct (s_used _); [|exact T]. apply tmrs_set; [exact T|apply tmr_blank]. Qed.
Lemma release_by_ar_tmr : forall c i ks st, tmrs c st -> tmrs c (fst (release_by_ar c i ks st)).
Proof.
  intros c i ks. induction ks as [|k t IH]; intros st T; cbn [release_by_ar]; [exact T|].
  destruct (_ && _); [|apply IH; exact T]. pose proof (release_tmr c k st T) as A. destruct (release c k st) as [st1 e1].
  specialize (IH st1 A). destruct (release_by_ar c i t st1) as [st2 e2]. exact IH.
Qed.
Lemma abort_tmr : forall c i st, tmrs c st -> tmrs c (fst (abort c i st)).
Proof.
  intros c i st T. unfold abort. destruct (ar_at st i) as [k|]; [|exact T].
  assert (A : tmrs c (fst (if s_release (sess_at c st k) then (st, []) else release c k st))).
  { destruct (s_release (sess_at c st k)); [exact T|apply release_tmr; exact T]. }
  destruct (if s_release (sess_at c st k) then (st, []) else release c k st) as [st1 e1].
  pose proof (release_by_ar_tmr c i (seq 0 (c_sessions c)) st1 A) as B. destruct (release_by_ar c i (seq 0 (c_sessions c)) st1) as [st2 e2]. exact B.
Qed.
Lemma send_tmr : forall c o k st st' e, tmrs c st -> s_counter (sess_at c st k) <= 3 -> send_with_timeout c o k st = Ok (st', e) -> tmrs c st'.
Proof.
  intros c o k st st' e T N E. unfold send_with_timeout in E. set (s := sess_at c st k) in *. cbn zeta in E.
  destruct (s_socket s <? 0); [apply ok_inv in E; destruct E as [<- _]; exact T|].
  destruct (0 <? s_counter s).
  - destruct (send_once o k _) as [[ok e0]| |]; try discriminate. cbn [obind] in E. apply ok_inv in E. destruct E as [<- _].
    apply tmrs_set; [exact T|]. intros _. cbn. lia.
  - destruct (s_ar s) as [i|]; [|discriminate].
    pose proof (abort_tmr c i (set_sess st k (with_resend s false (s_counter s))) ltac:(apply tmrs_set; [exact T|apply tmr_quiet; reflexivity])) as A.
    destruct (abort c i _) as [st2 e2]. cbn [fst] in A. destruct (_ && _); apply ok_inv in E; destruct E as [<- _]; [|exact A].
    apply tmrs_set; [exact A|]. exact (A k).
Qed.
Lemma tmr_same : forall s s', same_out s s' -> tmr s -> tmr s'.
Proof. intros s s' H T R. unfold same_out in H. decompose [and] H. unfold tmr in T. replace (s_counter s') with (s_counter s) by congruence. apply T. congruence. Qed.
Lemma tmrs_others : forall c k st st' e, tmrs c st -> others c k st st' e -> forall j, j <> k -> tmr (sess_at c st' j).
Proof. intros c k st st' e T [_ H] j J. destruct (H j J) as [->|[-> _]]; [apply T|apply tmr_blank]. Qed.

Lemma request_send_tmr : forall c o k h m a b be st st' e, (k < length (n_sess st))%nat -> tmrs c st -> s_resend (sess_at c st k) = false ->
  request_send c o k h m a b be st = Ok (st', e) -> tmrs c st'.
Proof.
  intros c o k h m a b be st st' e L T Q E. unfold request_send in E. cbn zeta in E.
  destruct (s_out_len (sess_at c st k) <? max_payload); cbn [obind] in E.
  - destruct (put_len be _ _ _ b) as [b3| |]; try discriminate. cbn [obind] in E.
    destruct (send_once o k _) as [[ok e0]| |]; try discriminate. cbn [obind] in E. apply ok_inv in E. destruct E as [<- _].
    apply tmrs_set; [exact T|apply tmr_quiet; exact Q].
  - destruct (put_header _ _ m 0) as [[[b0 p] lp]| |]; try discriminate. cbn [obind] in E.
    destruct (put_len be _ _ _ lp) as [b3| |]; try discriminate. cbn [obind] in E.
    refine (send_tmr _ _ _ _ _ _ _ _ E); [|rewrite sess_at_set_same by exact L; cbn [s_counter with_resend]; unfold number_of_resends; lia].
    apply tmrs_set; [exact T|apply tmr_quiet; exact Q].
Qed.
Lemma next_fragment_tmr : forall c o k h r st st' e, (k < length (n_sess st))%nat -> tmrs c st -> s_resend (sess_at c st k) = false ->
  next_fragment c o k h r st = Ok (st', e) -> tmrs c st'.
Proof.
  intros c o k h r st st' e L T Q E. unfold next_fragment in E. cbn zeta in E.
  destruct (_ <? s_out_len _).
  - repeat match type of E with
      | (do x <- ?a; _) = _ => let F := fresh in destruct a as [[[? ?] ?]| |] eqn:F; try discriminate; cbn [obind] in E
      | (do x <- ?a; _) = _ => let F := fresh in destruct a as [?| |] eqn:F; try discriminate; cbn [obind] in E
      end.
    refine (send_tmr _ _ _ _ _ _ _ _ E); [|rewrite sess_at_set_same by exact L; cbn [s_counter with_resend]; unfold number_of_resends; lia]. apply tmrs_set; [exact T|apply tmr_quiet; exact Q].
  - apply ok_inv in E. destruct E as [<- _]. apply tmrs_set; [exact T|apply tmr_quiet; exact Q].
Qed.
Lemma answer_request_tmr : forall c o k h r st st' e, (k < length (n_sess st))%nat -> tmrs c st -> s_resend (sess_at c st k) = false ->
  answer_request c o k h r st = Ok (st', e) -> tmrs c st'.
Proof.
  intros c o k h r st st' e L T Q E. unfold answer_request in E.
  destruct (request_limit c h r) as [[[m r1] be]| |]; try discriminate. cbn [obind] in E.
  destruct (request_start c o k h m be st) as [[[st1 start] lpos]| |] eqn:E1; try discriminate. cbn [obind] in E.
  assert (A : exists s1, st1 = set_sess st k s1 /\ s_resend s1 = false).
  { unfold request_start in E1. cbn zeta in E1. destruct (put_header _ _ m 0) as [[[b0 st0] lp]| |]; try discriminate. cbn [obind] in E1.
    destruct (poke _ _ _) as [b1| |]; try discriminate. cbn [obind] in E1. injection E1 as <- _ _. eexists. split; [reflexivity|].
    destruct (h_opnum h =? op_release); cbn; exact Q. }
  destruct A as (s1 & -> & Q1).
  pose proof (handle_out c o k h (set_be r1 be) (set_sess st k s1) ltac:(rewrite length_set_sess; exact L)) as HO.
  pose proof (handle_others c o k h (set_be r1 be) (set_sess st k s1)) as HT.
  destruct (handle c o k h (set_be r1 be) (set_sess st k s1)) as [[st2 e1] prm] eqn:EH.
  destruct (request_send c o k h m start lpos be st2) as [[st3 e2]| |] eqn:E2; try discriminate. cbn [obind] in E. apply ok_inv in E. destruct E as [<- _].
  destruct HO as (L2 & KO & _). rewrite sess_at_set_same in KO by exact L.
  assert (Q2 : s_resend (sess_at c st2 k) = false).
  { destruct KO as [KO|[KO _]]; unfold same_out in KO; decompose [and] KO; cbn in *; congruence. }
  eapply request_send_tmr; [|  |exact Q2|exact E2]; [rewrite L2, length_set_sess; exact L|].
  intros j. destruct (Nat.eq_dec j k) as [->|J]; [apply tmr_quiet; exact Q2|].
  eapply tmrs_others; [|exact HT|exact J]. apply tmrs_set; [exact T|apply tmr_quiet; exact Q1].
Qed.

Lemma ccontrol_quiet : forall c o i sock obj st st' e, ccontrol c o i sock obj st = Ok (st', e) ->
  (st' = st /\ e = []) \/
  exists k s1, first_free (n_sess st) 0 = Some k /\ s_resend s1 = false /\ s_counter s1 = 3 /\ send_with_timeout c o k (set_sess st k s1) = Ok (st', e).
Proof.
  intros c o i sock obj st st' e E. unfold ccontrol in E. destruct (ar_at st i) as [j|]; [|injection E as <- <-; auto].
  unfold allocate in E. destruct (first_free (n_sess st) 0) as [k|] eqn:F; [|injection E as <- <-; auto]. right.
  destruct (first_free_spec _ _ _ F) as [A _].
  cbn zeta in E. destruct (put_header _ _ (c_buf c) 0) as [[[b0 start] lp0]| |]; try discriminate. cbn [obind] in E.
  destruct (poke b0 start _) as [b1| |]; try discriminate. cbn [obind] in E.
  match type of E with (do x <- ?a; _) = _ => destruct a as [[[b2 send] lp]| |]; try discriminate end. cbn [obind] in E.
  destruct (put_len true _ _ _ lp) as [b3| |]; try discriminate. cbn [obind] in E. rewrite set_sess_twice in E.
  eexists k, _. split; [reflexivity|]. split; [|split; [|exact E]]; rewrite ?sess_at_set_same by lia; reflexivity.
Qed.
Lemma act_tmr : forall c o k fresh h r st st' e, (k < length (n_sess st))%nat -> tmrs c st -> s_resend (sess_at c st k) = false ->
  act c o k fresh h r st = Ok (st', e) -> tmrs c st'.
Proof.
  intros c o k fresh h r st st' e L T Q E. unfold act in E. cbn zeta in E.
  assert (T1 : tmrs c (set_sess st k (with_out (sess_at c st k) (s_out (sess_at c st k)) 0 0 0 0))) by (apply tmrs_set; [exact T|apply tmr_quiet; exact Q]).
  destruct (h_ptype h =? pt_ping).
  { destruct (answer_ping o k h _) as [e0| |]; try discriminate. cbn [obind] in E. apply ok_inv in E. destruct E as [<- _].
    apply tmrs_set; [exact T1|]. apply tmr_quiet. rewrite sess_at_set_same by exact L. exact Q. }
  destruct (h_ptype h =? pt_request).
  { eapply answer_request_tmr; [| | |exact E]; [rewrite length_set_sess; exact L|exact T1|rewrite sess_at_set_same by exact L; exact Q]. }
  destruct (h_ptype h =? pt_frag_ack); [eapply next_fragment_tmr; eassumption|].
  assert (TK : forall b, tmrs c (kill_if c b k st)).
  { intros b. unfold kill_if. apply tmrs_set; [exact T|apply tmr_quiet; exact Q]. }
  destruct (h_ptype h =? pt_response).
  { unfold response in E. destruct fresh; [apply ok_inv in E; destruct E as [<- _]; apply TK|].
    destruct (get_ndr r) as [[nd r1]| |]; try discriminate. cbn [obind] in E. destruct (_ =? _); [|apply ok_inv in E; destruct E as [<- _]; exact T].
    destruct (s_ar _); [|discriminate]. apply ok_inv in E. destruct E as [<- _]. apply TK. }
  destruct (_ || _); [|apply ok_inv in E; destruct E as [<- _]; exact T].
  unfold cancel in E. assert (A : tmrs c (fst (match s_ar (sess_at c st k) with Some i => abort c i st | None => (st, []) end))).
  { destruct (s_ar _); [apply abort_tmr; exact T|exact T]. }
  destruct (match s_ar (sess_at c st k) with Some i => abort c i st | None => (st, []) end) as [st1 e1]. apply ok_inv in E. destruct E as [<- _]. cbn [fst] in A.
  apply tmrs_set; [exact A|]. exact (A k).
Qed.

Lemma packet_tmr : forall c o ip port frame h r st st' e, cfg_ok c -> net_ok c st -> tmrs c st -> packet c o ip port frame h r st = Ok (st', e) -> tmrs c st'.
Proof.
  intros c o ip port frame h r st st' e C N T E. rewrite packet_steps in E.
  destruct (session_for c o ip port h st) as [[[k fresh] st1]|] eqn:SF; [|apply ok_inv in E; destruct E as [<- _]; exact T].
  destruct (session_for_ok _ _ _ _ _ _ _ _ _ C N SF) as (N1 & L1 & A1 & O1 & X & Y).
  assert (T1 : tmrs c st1).
  { intros j. destruct (Nat.eq_dec j k) as [->|J]; [|rewrite O1 by exact J; apply T]. destruct fresh.
    - destruct (Y eq_refl) as (_ & _ & ->). apply tmr_quiet. reflexivity.
    - destruct (X eq_refl) as (-> & _). apply T. }
  apply session_step_inv in E. destruct E as (s1 & r1 & st3 & e3 & E1 & E2 & E3). cbn zeta in *.
  set (s2 := with_resend s1 false (s_counter s1)) in *.
  assert (T2 : tmrs c (set_sess st1 k s2)) by (apply tmrs_set; [exact T1|apply tmr_quiet; reflexivity]).
  assert (T3 : tmrs c st3).
  { destruct (max_body <? h_bodylen h).
    - destruct E2 as [_ ->]. apply tmrs_set; [exact T2|apply tmr_quiet; reflexivity].
    - destruct (_ || _).
      + eapply act_tmr; [| | |exact E2]; [rewrite length_set_sess; exact L1|exact T2|rewrite sess_at_set_same by exact L1; reflexivity].
      + destruct (h_nofack h =? 0); destruct E2 as [_ ->]; exact T2. }
  destruct (s_kill (sess_at c st3 k)); destruct E3 as [-> _]; [apply release_tmr; exact T3|exact T3].
Qed.

Lemma step_tmr : forall c x st st' e, cfg_ok c -> net_ok c st -> tmrs c st -> step c x st = Ok (st', e) -> tmrs c st'.
Proof.
  intros c [x o] st st' e C N T E. destruct x as [ip port frame len old|k|k|i|i sock obj]; cbn [step] in E.
  - unfold datagram in E. destruct (len <=? 0); [apply ok_inv in E; destruct E as [<- _]; exact T|].
    destruct (get_dce_rpc_header old old old _) as [[h r]| |]; try discriminate. cbn [obind] in E. eapply packet_tmr; eassumption.
  - destruct (s_resend (sess_at c st k)) eqn:RS; [|apply ok_inv in E; destruct E as [<- _]; exact T].
    refine (send_tmr _ _ _ _ _ _ T _ E). specialize (T k RS). lia.
  - destruct (s_epmtimer (sess_at c st k)); [|apply ok_inv in E; destruct E as [<- _]; exact T].
    pose proof (release_tmr c k st T) as A. destruct (release c k st). apply ok_inv in E. destruct E as [<- _]. exact A.
  - pose proof (abort_tmr c i st T) as A. destruct (abort c i st). apply ok_inv in E. destruct E as [<- _]. exact A.
  - apply ccontrol_quiet in E. destruct E as [[-> _]|(k & s1 & F & Q & CN & E)]; [exact T|].
    destruct (first_free_spec _ _ _ F) as [A _].
    refine (send_tmr _ _ _ _ _ _ _ _ E); [|rewrite sess_at_set_same by lia; lia]. apply tmrs_set; [exact T|apply tmr_quiet; exact Q].
Qed.
Lemma reached_tmr : forall c l st, cfg_ok c -> reached c l st -> tmrs c st.
Proof.
  intros c l st C [F (e & R)]. assert (T0 : tmrs c (rpc_init c)).
  { intros j. apply tmr_quiet. unfold sess_at, rpc_init. cbn [n_sess]. destruct (Nat.lt_ge_cases j (c_sessions c)).
    - rewrite nth_repeat. reflexivity.
    - rewrite nth_overflow by (rewrite repeat_length; lia). reflexivity. }
  pose proof (init_ok c C) as N0. revert N0 T0 e R. generalize (rpc_init c) as s0. induction F as [|x l V F IH]; intros s0 N0 T0 e R; cbn [run] in R.
  - apply ok_inv in R. destruct R as [<- _]. exact T0.
  - destruct (step c x s0) as [[st1 e1]| |] eqn:E1; try discriminate. cbn [obind] in R.
    destruct (run c l st1) as [[st2 e2]| |] eqn:E2; try discriminate. cbn [obind] in R. apply ok_inv in R. destruct R as [<- _].
    eapply (IH st1); [exact (step_net_ok _ _ _ _ _ C N0 V E1)|exact (step_tmr _ _ _ _ _ C N0 T0 E1)|exact E2].
Qed.

(** * C93 *)

(** One expiration of the timer. *)
Lemma expire : forall c o k i m st st1 e, net_ok c st -> waiting c st k i m -> m <> [] -> o_sent o = true -> o_timer o = true ->
  step c (IResend k, o) st = Ok (st1, e) ->
  if 0 <? s_counter (sess_at c st k)
  then waiting c st1 k i m /\ s_counter (sess_at c st1 k) = s_counter (sess_at c st k) - 1 /\ sent_by k e = [m]
  else s_resend (sess_at c st1 k) = false /\ sent_by k e = [] /\ In (Ended i) e /\ ar_at st1 i = None.
Proof.
  intros c o k i m st st1 e N (U & RS & AR & SK & CM & AI) M OS OT E. cbn [step] in E. rewrite RS in E. pose proof (used_lt c st k U) as L.
  pose proof (proj2 N k) as SS. set (s := sess_at c st k) in *. unfold send_with_timeout in E. fold s in E. cbn zeta in E.
  destruct (Z.ltb_spec (s_socket s) 0); [lia|]. destruct (Z.ltb_spec 0 (s_counter s)) as [G|G].
  - assert (S1 : sess_ok c (with_resend s false (s_counter s - 1))).
    { unfold sess_ok, out_ok in *. cbn [s_in s_out s_in_len s_in_frag s_out_len s_out_frag s_sent_pos s_send_len s_counter with_resend] in *.
      destruct SS as (I1 & I2 & I3 & I4 & I5 & I6). split; [exact I1|split; [exact I2|split; [exact I3|split; [exact I4|split; [exact I5|lia]]]]]. }
    rewrite (send_once_ok c o k _ S1) in E. cbn [s_send_len s_out with_resend obind] in E. rewrite CM in E.
    rewrite send_buffer_ok in E by assumption. apply ok_inv in E. destruct E as [<- <-].
    unfold waiting. rewrite sess_at_set_same by exact L. cbn [s_used s_resend s_ar s_socket s_send_len s_out s_counter with_resend sent_by]. rewrite Nat.eqb_refl, OT.
    split; [|split; [reflexivity|reflexivity]]. split; [exact U|]. split; [reflexivity|]. split; [exact AR|]. split; [exact SK|]. split; [exact CM|exact AI].
  - rewrite AR in E. set (sA := set_sess st k (with_resend s false (s_counter s))) in *.
    assert (QA : forall s0, s0 = sess_at c (fst (abort c i sA)) k -> s_resend s0 = false).
    { intros s0 ->. destruct (abort_sessions c i sA) as (_ & _ & AS). destruct (AS k) as [->|[-> _]]; [|reflexivity]. unfold sA. rewrite sess_at_set_same by exact L. reflexivity. }
    assert (EA : In (Ended i) (snd (abort c i sA)) /\ ar_at (fst (abort c i sA)) i = None).
    { unfold abort. change (ar_at sA i) with (ar_at st i). destruct (ar_at st i) as [j|] eqn:AJ; [|congruence].
      destruct (if s_release (sess_at c sA j) then (sA, []) else release c j sA) as [sB eB] eqn:RB.
      destruct (release_by_ar c i (seq 0 (c_sessions c)) sB) as [sC eC] eqn:RC. cbn [fst snd]. split; [left; reflexivity|].
      pose proof (proj1 (proj2 (abort_sessions c i sA))) as NA. unfold abort in NA. change (ar_at sA i) with (ar_at st i) in NA. rewrite AJ, RB, RC in NA. cbn [fst] in NA.
      unfold ar_at. rewrite NA, nth_put_nth, Nat.eqb_refl. destruct (Nat.ltb_spec i (length (n_ar sA))); [reflexivity|]. rewrite nth_overflow by assumption. reflexivity. }
    pose proof (abort_nosent c i sA k) as NS. destruct (abort c i sA) as [st2 e2]. cbn [fst snd] in *.
    destruct (s_from_me s && (-1 <? s_socket (sess_at c st2 k))).
    + apply ok_inv in E. destruct E as [<- <-]. rewrite sent_by_app, NS. split; [|split; [reflexivity|split; [apply in_or_app; left; apply EA|exact (proj2 EA)]]].
      destruct (Nat.lt_ge_cases k (length (n_sess st2))) as [L2|L2].
      * rewrite sess_at_set_same by exact L2. exact (QA _ eq_refl).
      * unfold sess_at. rewrite nth_overflow by (rewrite length_set_sess; exact L2). reflexivity.
    + apply ok_inv in E. destruct E as [<- <-]. split; [exact (QA _ eq_refl)|]. split; [exact NS|exact EA].
Qed.

Lemma quiet_silence : forall c k i n st e st2, silence c k i n st e st2 -> s_resend (sess_at c st k) = false -> sent_by k e = [].
Proof.
  intros c k i n st e st2 H. induction H as [st|n x st st1 e1 e st2 V E SE AE NE H IH|n o st st1 e1 e st2 V OS OT E H IH]; intros Q.
  - reflexivity.
  - rewrite sent_by_app, NE. apply IH. rewrite SE. exact Q.
  - cbn [step] in E. rewrite Q in E. apply ok_inv in E. destruct E as [<- <-]. exact (IH Q).
Qed.

Lemma silence_exact : forall c k i m n st e st2, cfg_ok c -> net_ok c st -> waiting c st k i m -> m <> [] -> silence c k i n st e st2 ->
  let r := Z.to_nat (s_counter (sess_at c st k)) in
  sent_by k e = repeat m (Nat.min n r) /\ ((n <= r)%nat -> waiting c st2 k i m) /\ ((r < n)%nat -> In (Ended i) e).
Proof.
  intros c k i m n st e st2 C N W M S1. cbn zeta.
  assert (K : 0 <= s_counter (sess_at c st k)) by (destruct (proj2 N k) as (_ & _ & _ & _ & _ & X); lia).
  induction S1 as [st|n x st st1 e1 e st2 V E SE AE NE H IH|n o st st1 e1 e st2 V OS OT E H IH].
  - split; [reflexivity|]. split; [intros _; exact W|lia].
  - pose proof (step_net_ok _ _ _ _ _ C N V E) as N1. rewrite SE in IH.
    assert (W1 : waiting c st1 k i m) by (unfold waiting in *; rewrite SE, AE; exact W).
    destruct (IH N1 W1 K) as (A & B & D). rewrite sent_by_app, NE. split; [exact A|]. split; [exact B|]. intros G. apply in_or_app. right. exact (D G).
  - pose proof (step_net_ok _ _ _ _ _ C N V E) as N1. pose proof (expire c o k i m st st1 e1 N W M OS OT E) as X.
    destruct (Z.ltb_spec 0 (s_counter (sess_at c st k))) as [G|G].
    + destruct X as (W1 & CN & SB). destruct (IH N1 W1 ltac:(lia)) as (A & B & D). rewrite CN in A, B, D.
      replace (Z.to_nat (s_counter (sess_at c st k))) with (S (Z.to_nat (s_counter (sess_at c st k) - 1))) by lia.
      rewrite sent_by_app, SB, A. split; [reflexivity|]. split; [intros Y; apply B; lia|]. intros Y. apply in_or_app. right. apply D. lia.
    + destruct X as (Q & SB & EN & _). replace (Z.to_nat (s_counter (sess_at c st k))) with 0%nat by lia. rewrite Nat.min_0_r.
      rewrite sent_by_app, SB, (quiet_silence _ _ _ _ _ _ _ H Q). split; [reflexivity|]. split; [lia|]. intros _. apply in_or_app. left. exact EN.
Qed.

(** Whenever a session waits for an answer: the message is repeated as long as the timer
    expires, at most twice; with the third expiration at the latest the connection ends. *)
Theorem C93_gives_up_partial : forall c l st k i m n e st2, cfg_ok c -> reached c l st -> waiting c st k i m -> m <> [] ->
  silence c k i n st e st2 ->
  exists r, (r <= 2)%nat /\ sent_by k e = repeat m (Nat.min n r) /\
    ((n <= r)%nat -> waiting c st2 k i m) /\ ((r < n)%nat -> In (Ended i) e).
Proof.
  intros c l st k i m n e st2 C R W M S1. pose proof (reached_ok c l st C R) as N. pose proof (reached_tmr c l st C R) as T.
  exists (Z.to_nat (s_counter (sess_at c st k))). split.
  { pose proof (T k) as TK. destruct W as (_ & RS & _). specialize (TK RS). lia. }
  exact (silence_exact c k i m n st e st2 C N W M S1).
Qed.
Print Assumptions C93_gives_up_partial.

(** The application ready request: one transmission, then waiting. *)
Lemma first_transmission : forall c o k i st s st1 e, (k < length (n_sess st))%nat -> s_used s = true -> s_ar s = Some i -> s_counter s = 3 ->
  ar_at st i <> None -> o_timer o = true -> send_with_timeout c o k (set_sess st k s) = Ok (st1, e) -> e <> [] ->
  exists m, sent_by k e = [m] /\ m <> [] /\ waiting c st1 k i m /\ s_counter (sess_at c st1 k) = 2.
Proof.
  intros c o k i st s st1 e L U A K AI OT E NE. unfold send_with_timeout in E. rewrite !sess_at_set_same in E by exact L. cbn zeta in E.
  destruct (Z.ltb_spec (s_socket s) 0) as [G|G]; [apply ok_inv in E; destruct E as [_ <-]; congruence|].
  rewrite K in E. change (0 <? 3) with true in E. cbn iota in E. unfold send_once in E.
  destruct (slice _ 0 _) as [b| |] eqn:SL; try discriminate. cbn [obind] in E.
  assert (EB : firstn (Z.to_nat (s_send_len s)) (s_out s) = b).
  { unfold slice in SL. cbn [s_out s_send_len with_resend] in SL. destruct (_ && _); [|discriminate]. injection SL as <-. reflexivity. }
  unfold send_buffer in E. destruct b as [|x y]; [apply ok_inv in E; destruct E as [_ <-]; congruence|].
  change (s_socket (with_resend s false (3 - 1))) with (s_socket s) in E.
  destruct (Z.ltb_spec (s_socket s) 0); [lia|]. destruct (o_sent o); cbn [orb negb] in E; [|apply ok_inv in E; destruct E as [_ <-]; congruence].
  apply ok_inv in E. destruct E as [<- <-]. exists (x :: y). cbn [sent_by]. rewrite Nat.eqb_refl. split; [reflexivity|]. split; [discriminate|].
  unfold waiting. rewrite set_sess_twice, sess_at_set_same by exact L. rewrite OT. cbn [s_used s_resend s_ar s_socket s_send_len s_out s_counter with_resend andb].
  split; [|reflexivity]. split; [exact U|]. split; [reflexivity|]. split; [exact A|]. split; [exact G|]. split; [exact EB|exact AI].
Qed.

(** A request of the device that is not answered: transmitted three times, always the
    same bytes, then the connection ends. *)
Theorem C93_ready_partial : forall c l st i sock obj o st1 e1 n, cfg_ok c -> reached c l st -> input_ok (IReady i sock obj, o) -> o_timer o = true ->
  step c (IReady i sock obj, o) st = Ok (st1, e1) -> e1 <> [] ->
  exists k m, m <> [] /\ forall e st2, silence c k i n st1 e st2 ->
    sent_by k (e1 ++ e) = repeat m (1 + Nat.min n 2) /\ ((n <= 2)%nat -> waiting c st2 k i m) /\ ((2 < n)%nat -> In (Ended i) e).
Proof.
  intros c l st i sock obj o st1 e1 n C R V OT E NE. pose proof E as E0. cbn [step] in E.
  assert (AI : ar_at st i <> None).
  { intros Q. unfold ccontrol in E. rewrite Q in E. apply ok_inv in E. destruct E as [_ <-]. congruence. }
  destruct (ccontrol_shape _ _ _ _ _ _ _ _ E) as [[_ ->]|(k & s1 & F & U & _ & _ & A & K & E1)]; [congruence|].
  destruct (first_free_spec _ _ _ F) as [LF _]. assert (L : (k < length (n_sess st))%nat) by lia.
  destruct (first_transmission c o k i st s1 st1 e1 L U A K AI OT E1 NE) as (m & SB & M & W & K2).
  exists k, m. split; [exact M|]. intros e st2 SI. pose proof (reached_ok c l st C R) as N.
  destruct (silence_exact c k i m n st1 e st2 C (step_net_ok _ _ _ _ _ C N V E0) W M SI) as (A1 & A2 & A3). rewrite K2 in A1, A2, A3. change (Z.to_nat 2) with 2%nat in *.
  rewrite sent_by_app, SB, A1. split; [reflexivity|]. split; assumption.
Qed.
Print Assumptions C93_ready_partial.

(** * Concrete case: application ready, no answer *)
Definition ready : input * hres := (IReady 0 5 (client 7), mkHres [1; 2; 3] ENone true false false false (client 50) true true).
Definition expired : input * hres := (IResend 1, plain).
Lemma reached_more : forall c l st x st1 e, reached c l st -> input_ok x -> step c x st = Ok (st1, e) -> reached c (l ++ [x]) st1.
Proof.
  intros c l st x st1 e [F (e0 & R)] V E. split; [apply Forall_app; split; [exact F|constructor; [exact V|constructor]]|].
  clear F V. revert R. generalize (rpc_init c) as s0. revert e0. induction l as [|y l IH]; intros e0 s0 R; cbn [run Datatypes.app] in *.
  - apply ok_inv in R. destruct R as [-> _]. rewrite E. cbn [obind]. eauto.
  - destruct (step c y s0) as [[s1 e1]| |]; try discriminate. cbn [obind] in *. destruct (run c l s1) as [[s2 e2]| |] eqn:E2; try discriminate. cbn [obind] in R.
    apply ok_inv in R. destruct R as [<- _]. destruct (IH e2 s1 E2) as (e3 & ->). cbn [obind]. eauto.
Qed.
Lemma ready_ok : input_ok ready.
Proof. split; unfold uuid_ok, client; cbn; repeat split; try lia. Qed.
(** The input [ready] is not a datagram: its validity is [ready_ok]. *)
Definition stepped_ready (st : net) (f : net -> list ev -> bool) : bool := match step small ready st with Ok (st1, e) => f st1 e | _ => false end.
Lemma stepped_ready_ok : forall st f, stepped_ready st f = true -> exists st1 e, step small ready st = Ok (st1, e) /\ f st1 e = true.
Proof. intros st f K. unfold stepped_ready in K. destruct (step small ready st) as [[st1 e]| |]; [|discriminate K|discriminate K]. eauto. Qed.
Definition given_up (e : list ev) : bool := match e with [Ended i; Closed s] => Nat.eqb i 0 && (s =? 5) | _ => false end.
Lemma given_up_ok : forall e, given_up e = true -> e = [Ended 0; Closed 5].
Proof.
  intros [|[| | | | | |i| |] [|[| | | | | | | |s] [|y e]]] H; try discriminate H. cbn [given_up] in H. apply andb_prop in H. destruct H as [H1 H2].
  apply Nat.eqb_eq in H1. apply Z.eqb_eq in H2. subst. reflexivity.
Qed.

Example C93_example : exists st st1 e1 e2 e3 e4 st4, reached small opened st /\ step small ready st = Ok (st1, e1) /\
  silence small 1 0 3 st1 (e2 ++ e3 ++ e4 ++ []) st4 /\ length (sent_by 1 (e1 ++ e2 ++ e3 ++ e4)) = 3%nat /\
  e4 = [Ended 0; Closed 5] /\ s_used (sess_at small st4 1) = false.
Proof.
  destruct (checked_ok opened (fun st _ => stepped_ready st (fun st1 e1 => stepped expired st1 (fun st2 e2 => stepped expired st2 (fun st3 e3 => stepped expired st3 (fun st4 e4 =>
    Nat.eqb (length (sent_by 1 (e1 ++ e2 ++ e3 ++ e4))) 3 && (given_up e4 && negb (s_used (sess_at small st4 1))))))))) as (st & e & RC & R & K);
    [vm_compute; reflexivity|intros x [<-|[]]; reflexivity|].
  apply stepped_ready_ok in K. destruct K as (st1 & e1 & E1 & K).
  apply stepped_ok in K; [|reflexivity]. destruct K as (st2 & e2 & V2 & E2 & K).
  apply stepped_ok in K; [|reflexivity]. destruct K as (st3 & e3 & V3 & E3 & K).
  apply stepped_ok in K; [|reflexivity]. destruct K as (st4 & e4 & V4 & E4 & K).
  apply andb_prop in K. destruct K as [K1 K]. apply andb_prop in K. destruct K as [K2 K3].
  exists st, st1, e1, e2, e3, e4, st4. split; [exact RC|]. split; [exact E1|]. split.
  { apply silence_expire with (o := plain) (st1 := st2); [exact V2|reflexivity|reflexivity|exact E2|].
    apply silence_expire with (o := plain) (st1 := st3); [exact V3|reflexivity|reflexivity|exact E3|].
    apply silence_expire with (o := plain) (st1 := st4); [exact V4|reflexivity|reflexivity|exact E4|]. apply silence_end. }
  split; [apply Nat.eqb_eq; exact K1|]. split; [apply given_up_ok; exact K2|apply negb_true_iff; exact K3].
Qed.

(** Finding: any datagram with the activity UUID of the session, for example a PING,
    stops the repetitions for ever; the message is not repeated any more and the
    connection is not aborted. *)
Definition disturb : input * hres :=
  (IDatagram 1 50001 (frame_with (header 1 0 0 0 0 0 0 uuid_io_device (client 50)) []) 80 [0; 0; 0; 0; 0; 0; 0; 0], plain).
Definition message (st : net) (k : nat) : list Z := firstn (Z.to_nat (s_send_len (sess_at small st k))) (s_out (sess_at small st k)).
Definition waiting_check (st : net) (k i : nat) : bool :=
  let s := sess_at small st k in s_used s && (s_resend s && (is_some i (s_ar s) && ((0 <=? s_socket s) && match ar_at st i with None => false | _ => true end))).
Lemma waiting_check_ok : forall st k i, waiting_check st k i = true -> waiting small st k i (message st k).
Proof.
  intros st k i H. unfold waiting_check in H. cbn zeta in H. rewrite !andb_true_iff, Z.leb_le in H. destruct H as (H1 & H2 & H3 & H4 & H5). unfold waiting. cbn zeta.
  split; [exact H1|]. split; [exact H2|]. split; [apply is_some_eq; exact H3|]. split; [exact H4|]. split; [reflexivity|]. intros Z0. rewrite Z0 in H5. discriminate H5.
Qed.
Definition no_end (e : list ev) : bool := forallb (fun x => match x with Ended _ => false | _ => true end) e.
Lemma no_end_ok : forall e i, no_end e = true -> ~ In (Ended i) e.
Proof. intros e i H I0. unfold no_end in H. rewrite forallb_forall in H. specialize (H _ I0). discriminate H. Qed.
Theorem C93_stopped_refuted : exists c l st x st1 e1 k i m, cfg_ok c /\ reached c l st /\ input_ok x /\ waiting c st k i m /\ m <> [] /\
  step c x st = Ok (st1, e1) /\ s_used (sess_at c st1 k) = true /\ s_ar (sess_at c st1 k) = Some i /\ ~ In (Ended i) e1 /\
  forall n e st2, silence c k i n st1 e st2 -> sent_by k e = [] /\ sess_at c st2 k = sess_at c st1 k /\ ar_at st2 i = ar_at st1 i /\ ar_at st1 i <> None.
Proof.
  destruct (checked_ok opened (fun st _ => stepped_ready st (fun st1 e1 => waiting_check st1 1 0 && (negb (Nat.eqb (length (message st1 1)) 0) &&
    stepped disturb st1 (fun st2 e2 => s_used (sess_at small st2 1) && (is_some 0 (s_ar (sess_at small st2 1)) && (no_end e2 &&
      (negb (s_resend (sess_at small st2 1)) && match ar_at st2 0 with None => false | _ => true end)))))))) as (st & e & RC & R & K);
    [vm_compute; reflexivity|intros x [<-|[]]; reflexivity|].
  apply stepped_ready_ok in K. destruct K as (st1 & e1 & E1 & K). apply andb_prop in K. destruct K as [K1 K]. apply andb_prop in K. destruct K as [K2 K].
  apply stepped_ok in K; [|reflexivity]. destruct K as (st2 & e2 & V2 & E2 & K). apply andb_prop in K. destruct K as [K3 K]. apply andb_prop in K. destruct K as [K4 K].
  apply andb_prop in K. destruct K as [K5 K]. apply andb_prop in K. destruct K as [K6 K7]. apply negb_true_iff in K2, K6.
  exists small, (opened ++ [ready]), st1, disturb, st2, e2, 1%nat, 0%nat, (message st1 1).
  split; [unfold cfg_ok; cbn; lia|]. split; [exact (reached_more small opened st ready st1 e1 RC ready_ok E1)|]. split; [exact V2|]. split; [apply waiting_check_ok; exact K1|].
  split; [intros Z0; rewrite Z0 in K2; discriminate K2|]. split; [exact E2|]. split; [exact K3|]. split; [apply is_some_eq; exact K4|]. split; [apply no_end_ok; exact K5|].
  assert (A : ar_at st2 0 <> None) by (intros Z0; rewrite Z0 in K7; discriminate K7).
  clear - K6 A. intros n e st3 SI. split; [exact (quiet_silence _ _ _ _ _ _ _ SI K6)|].
  induction SI as [st|n x st st1 e1 e st2 V E SE AE NE H IH|n o st st1 e1 e st2 V OS OT E H IH].
  - auto.
  - rewrite SE, AE in IH. exact (IH K6 A).
  - cbn [step] in E. rewrite K6 in E. apply ok_inv in E. destruct E as [<- <-]. exact (IH K6 A).
Qed.
Print Assumptions C93_stopped_refuted.

(** Finding: the number of the acknowledged fragment is not looked at.  If the
    acknowledge of fragment 0 arrives twice, fragment 2 follows fragment 1 at once; if
    fragment 1 was lost, it is not repeated any more: only fragment 2 is, and the
    controller never gets the response. *)
Definition frag (e : list ev) : list Z := nth 0 (sent_by 0 e) [].
Definition single (e : list ev) (n : Z) : bool := Nat.eqb (length (sent_by 0 e)) 1 && match decode (frag e) with Some (h, _) => h_fragnmb h =? n | None => false end.
Lemma single_ok : forall e n, single e n = true -> sent_by 0 e = [frag e] /\ exists h b, decode (frag e) = Some (h, b) /\ h_fragnmb h = n.
Proof.
  intros e n H. unfold single in H. apply andb_prop in H. destruct H as [H1 H2]. apply Nat.eqb_eq in H1. split.
  - unfold frag. destruct (sent_by 0 e) as [|x [|y l]]; try discriminate H1. reflexivity.
  - destruct (decode (frag e)) as [[h b]|]; [|discriminate H2]. apply Z.eqb_eq in H2. eauto.
Qed.
Theorem C92_duplicate_refuted : exists l q st1 st2 st3 e0 e1 e2 f0 f1 f2, reached small l st1 /\ input_ok q /\ input_ok ack /\
  (exists st0, reached small (removelast l) st0 /\ step small q st0 = Ok (st1, e0) /\ sent_by 0 e0 = [f0]) /\
  fst ack = send_to 1 50001 9 0 0 0 2 2 uuid_io_device [] /\
  step small ack st1 = Ok (st2, e1) /\ sent_by 0 e1 = [f1] /\ step small ack st2 = Ok (st3, e2) /\ sent_by 0 e2 = [f2] /\
  (exists h b, decode f1 = Some (h, b) /\ h_fragnmb h = 1) /\ (exists h b, decode f2 = Some (h, b) /\ h_fragnmb h = 2) /\
  waiting small st3 0 0 f2 /\ reassemble (client 1) 2 [f0; f2] = (1, firstn 1360 (o_body (snd q)), false).
Proof.
  set (q := question long_body).
  destruct (checked_ok opened (fun st _ => stepped q st (fun st1 e0 => single e0 0 && stepped ack st1 (fun st2 e1 => single e1 1 && stepped ack st2 (fun st3 e2 => single e2 2 && (waiting_check st3 0 0 &&
    (same_bytes (message st3 0) (frag e2) && result_check (reassemble (client 1) 2 [frag e0; frag e2]) 1 (firstn 1360 (o_body (snd q))) false))))))) as (st & e & RC & R & K);
    [vm_compute; reflexivity|intros x [<-|[]]; reflexivity|].
  apply stepped_ok in K; [|reflexivity]. destruct K as (st1 & e0 & V1 & E1 & K). apply andb_prop in K. destruct K as [K0 K].
  apply stepped_ok in K; [|reflexivity]. destruct K as (st2 & e1 & V2 & E2 & K). apply andb_prop in K. destruct K as [K1 K].
  apply stepped_ok in K; [|reflexivity]. destruct K as (st3 & e2 & V3 & E3 & K). apply andb_prop in K. destruct K as [K2 K]. apply andb_prop in K. destruct K as [K3 K]. apply andb_prop in K. destruct K as [K4 K5].
  apply single_ok in K0, K1, K2. destruct K0 as [S0 _]. destruct K1 as (S1 & D1). destruct K2 as (S2 & D2).
  exists (opened ++ [q]), q, st1, st2, st3, e0, e1, e2, (frag e0), (frag e1), (frag e2).
  split; [exact (reached_more small opened st q st1 e0 RC V1 E1)|]. split; [exact V1|]. split; [exact V2|].
  split; [exists st; split; [exact RC|]; split; [exact E1|exact S0]|]. split; [reflexivity|]. split; [exact E2|]. split; [exact S1|]. split; [exact E3|]. split; [exact S2|].
  split; [exact D1|]. split; [exact D2|]. split; [rewrite <- (same_bytes_eq _ _ K4); apply waiting_check_ok; exact K3|apply result_check_ok; exact K5].
Qed.
Print Assumptions C92_duplicate_refuted.
