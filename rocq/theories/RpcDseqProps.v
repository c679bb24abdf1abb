(** C98: control requests are executed once. *)
From Coq Require Import List ZArith Arith Bool Lia.
From Verif Require Import Base CpmModel CpmProps PpmModel PpmProps BlockModel BlockReadLemmas BlockReadProps BlockWriteProps RpcModel RpcLemmas RpcInv RpcStep RpcProps RpcFrame RpcIdent RpcAnswer RpcReply RpcReplyProps.
Import ListNotations.
Local Open Scope Z_scope.

(** * The stored number of the last control request *)
Definition kept (s s' : sess) : Prop := s_used s' = true -> s_used s = true /\ s_dseq s' = s_dseq s.
Definition kepts (c : cfg) (st st' : net) : Prop := forall j, kept (sess_at c st j) (sess_at c st' j).

Lemma kept_refl : forall s, kept s s.
Proof. intros s U. auto. Qed.
Lemma kept_trans : forall a b d, kept a b -> kept b d -> kept a d.
Proof. intros a b d A B U. destruct (B U) as (B1 & B2). destruct (A B1) as (A1 & A2). split; [exact A1|congruence]. Qed.
Lemma kept_blank : forall c s, kept s (blank c).
Proof. intros c s U. discriminate. Qed.
Lemma kepts_refl : forall c st, kepts c st st.
Proof. intros c st j. apply kept_refl. Qed.
Lemma kepts_trans : forall c a b d, kepts c a b -> kepts c b d -> kepts c a d.
Proof. intros c a b d A B j. eapply kept_trans; [apply A|apply B]. Qed.
Lemma kepts_set : forall c st k s, (k < length (n_sess st))%nat -> kept (sess_at c st k) s -> kepts c st (set_sess st k s).
Proof. intros c st k s L H j. rewrite sess_at_set by exact L. destruct (Nat.eqb_spec j k) as [->|]; [exact H|apply kept_refl]. Qed.
Lemma abort_kepts : forall c i st, kepts c st (fst (abort c i st)).
Proof.
  intros c i st j. destruct (abort_sessions c i st) as (_ & _ & S1). destruct (S1 j) as [X|[X _]]; rewrite X; [apply kept_refl|apply kept_blank].
Qed.
Lemma release_kepts : forall c k st, kepts c st (fst (release c k st)).
Proof.
  intros c k st j. destruct (release_sessions c k st) as (_ & _ & S1). destruct (S1 j) as [X|[_ X]]; rewrite X; [apply kept_refl|apply kept_blank].
Qed.
Lemma connect_fails_kepts : forall c k st, (k < length (n_sess st))%nat -> kepts c st (connect_fails c k st).
Proof. intros c k st L. apply kepts_set; [exact L|]. intros U; cbn in *; auto. Qed.
Lemma kill_if_kepts : forall c b k st, (k < length (n_sess st))%nat -> kepts c st (kill_if c b k st).
Proof. intros c b k st L. apply kepts_set; [exact L|]. intros U; cbn in *; auto. Qed.
Lemma do_connect_kepts : forall c o k err st, (k < length (n_sess st))%nat -> kepts c st (fst (do_connect c o k err st)).
Proof.
  intros c o k err st L. unfold do_connect. pose proof (connect_fails_kepts c k st L) as F. destruct err; [exact F|]. destruct (o_effect o) as [| |[]|i|i]; try exact F.
  - destruct (free_ar (n_ar st) 0) as [i|]; [|exact F]. cbn [fst]. intros j.
    pose proof (kepts_set c st k (with_ar (sess_at c st k) (Some i)) L ltac:(intros U; cbn in *; auto) j) as K. exact K.
  - destruct (ar_at st i) as [j|]; [|exact F]. eapply kepts_trans; [|apply abort_kepts]. apply kepts_set; [exact L|]. destruct (Nat.eqb j k); intros U; cbn in *; auto.
Qed.
Lemma do_release_kepts : forall c o k err st, (k < length (n_sess st))%nat -> kepts c st (fst (do_release c o k err st)).
Proof.
  intros c o k err st L. unfold do_release.
  assert (H : let p := (if err then (st, []) else match o_effect o with ERelease i => abort c i st | _ => (st, []) end) in kepts c st (fst p) /\ length (n_sess (fst p)) = length (n_sess st)).
  { destruct err; [split; [apply kepts_refl|reflexivity]|]. destruct (o_effect o); try (split; [apply kepts_refl|reflexivity]). split; [apply abort_kepts|apply abort_sessions]. }
  cbn zeta in H. destruct (if err then (st, []) else match o_effect o with ERelease i => abort c i st | _ => (st, []) end) as [st1 e]. cbn [fst] in *.
  destruct H as [H1 H2]. eapply kepts_trans; [exact H1|]. apply kepts_set; [lia|]. intros U; cbn in *; auto.
Qed.

(** Control requests among the events: those of session [k]. *)
Definition is_exec (k : nat) (x : ev) : bool := match x with Execute j op _ _ => Nat.eqb j k && (op =? 4) | _ => false end.
Definition executed (k : nat) (e : list ev) : list ev := filter (is_exec k) e.
Lemma executed_app : forall k a b, executed k (a ++ b) = executed k a ++ executed k b.
Proof. intros k a b. apply filter_app. Qed.
Definition noexec (e : list ev) : Prop := forall k, executed k e = [].
Lemma noexec_app : forall a b, noexec a -> noexec b -> noexec (a ++ b).
Proof. intros a b A B k. rewrite executed_app, A, B. reflexivity. Qed.
Lemma noexec_nil : noexec [].
Proof. intros k. reflexivity. Qed.
Lemma noexec_cons : forall x e, (forall k, is_exec k x = false) -> noexec e -> noexec (x :: e).
Proof. intros x e X E k. unfold executed. cbn [filter]. rewrite X. apply E. Qed.
Lemma release_noexec : forall c k st, noexec (snd (release c k st)).
Proof. intros c k st. unfold release. destruct (s_used _); [|apply noexec_nil]. cbn [snd]. destruct (_ && _); intros j; reflexivity. Qed.
Lemma release_by_ar_noexec : forall c i ks st, noexec (snd (release_by_ar c i ks st)).
Proof.
  intros c i ks. induction ks as [|k t IH]; intros st; cbn [release_by_ar]; [apply noexec_nil|].
  destruct (_ && _); [|apply IH]. pose proof (release_noexec c k st) as A. destruct (release c k st) as [st1 e1].
  specialize (IH st1). destruct (release_by_ar c i t st1) as [st2 e2]. cbn [snd] in *. apply noexec_app; assumption.
Qed.
Lemma abort_noexec : forall c i st, noexec (snd (abort c i st)).
Proof.
  intros c i st. unfold abort. destruct (ar_at st i) as [k|]; [|apply noexec_nil].
  assert (A : noexec (snd (if s_release (sess_at c st k) then (st, []) else release c k st))).
  { destruct (s_release (sess_at c st k)); [apply noexec_nil|apply release_noexec]. }
  destruct (if s_release (sess_at c st k) then (st, []) else release c k st) as [st1 e1].
  pose proof (release_by_ar_noexec c i (seq 0 (c_sessions c)) st1) as B. destruct (release_by_ar c i (seq 0 (c_sessions c)) st1) as [st2 e2]. cbn [snd] in *.
  apply noexec_cons; [reflexivity|]. apply noexec_app; assumption.
Qed.
Lemma do_connect_noexec : forall c o k err st, noexec (snd (do_connect c o k err st)).
Proof.
  intros c o k err st. unfold do_connect. destruct err; [apply noexec_nil|]. destruct (o_effect o) as [| |[]|i|i]; try apply noexec_nil.
  - destruct (free_ar _ _); [|apply noexec_nil]. intros j. reflexivity.
  - destruct (ar_at st i); [|apply noexec_nil]. apply abort_noexec.
Qed.
Lemma do_release_noexec : forall c o k err st, noexec (snd (do_release c o k err st)).
Proof.
  intros c o k err st. unfold do_release.
  assert (H : noexec (snd (if err then (st, []) else match o_effect o with ERelease i => abort c i st | _ => (st, []) end))).
  { destruct err; [apply noexec_nil|]. destruct (o_effect o); try apply noexec_nil. apply abort_noexec. }
  destruct (if err then (st, []) else match o_effect o with ERelease i => abort c i st | _ => (st, []) end) as [st1 e]. exact H.
Qed.

(** What a handler does: no control request is executed and the stored numbers stay, or
    one is, with a number other than the stored one, which it replaces. *)
Definition controls (c : cfg) (o : hres) (k : nat) (h : rpch) (st st' : net) (e : list ev) : Prop :=
  (noexec e /\ kepts c st st') \/
  (h_interface h = uuid_io_device /\ h_opnum h = 4 /\ h_ptype h = 0 /\ o_parsed o = true /\ s_dseq (sess_at c st k) <> h_seq h /\
   (exists r err, executed k e = [Execute k 4 r err]) /\ (forall j, j <> k -> executed j e = []) /\
   (s_used (sess_at c st' k) = true -> s_used (sess_at c st k) = true /\ s_dseq (sess_at c st' k) = h_seq h) /\
   forall j, j <> k -> kept (sess_at c st j) (sess_at c st' j)).
Lemma controls_post : forall c o k h st st1 st2 e1 e2, controls c o k h st st1 e1 -> kepts c st1 st2 -> noexec e2 -> controls c o k h st st2 (e1 ++ e2).
Proof.
  intros c o k h st st1 st2 e1 e2 [[A B]|(A1 & A2 & A3 & A4 & A5 & (r & err & A6) & A7 & A8 & A9)] K N.
  - left. split; [apply noexec_app; assumption|]. eapply kepts_trans; eassumption.
  - right. split; [exact A1|]. split; [exact A2|]. split; [exact A3|]. split; [exact A4|]. split; [exact A5|].
    split; [exists r, err; rewrite executed_app, A6, (N k); reflexivity|]. split; [intros j J; rewrite executed_app, (A7 j J), (N j); reflexivity|].
    split; [intros U; destruct (K k U) as [U1 D1]; destruct (A8 U1) as [U2 D2]; split; [exact U2|congruence]|].
    intros j J. eapply kept_trans; [apply (A9 j J)|apply K].
Qed.
Lemma controls_pre : forall c o k h st0 st st' e, controls c o k h st st' e -> (forall j, s_used (sess_at c st j) = s_used (sess_at c st0 j) /\ s_dseq (sess_at c st j) = s_dseq (sess_at c st0 j)) ->
  controls c o k h st0 st' e.
Proof.
  intros c o k h st0 st st' e H P. assert (K : kepts c st0 st) by (intros j U; destruct (P j) as [P1 P2]; split; congruence).
  destruct H as [[A B]|(A1 & A2 & A3 & A4 & A5 & A6 & A7 & A8 & A9)].
  - left. split; [exact A|]. eapply kepts_trans; eassumption.
  - right. split; [exact A1|]. split; [exact A2|]. split; [exact A3|]. split; [exact A4|]. split; [destruct (P k) as [_ P2]; congruence|].
    split; [exact A6|]. split; [exact A7|]. split; [intros U; destruct (A8 U) as [U1 D1]; destruct (K k U1) as [U2 _]; split; assumption|].
    intros j J. eapply kept_trans; [apply K|apply (A9 j J)].
Qed.
Lemma same_set : forall c st k s, (k < length (n_sess st))%nat -> s_used s = s_used (sess_at c st k) -> s_dseq s = s_dseq (sess_at c st k) ->
  forall j, s_used (sess_at c (set_sess st k s) j) = s_used (sess_at c st j) /\ s_dseq (sess_at c (set_sess st k s) j) = s_dseq (sess_at c st j).
Proof. intros c st k s L U D j. rewrite sess_at_set by exact L. destruct (Nat.eqb_spec j k) as [->|]; auto. Qed.
Lemma handle_controls : forall c o k h r st, (k < length (n_sess st))%nat -> h_ptype h = 0 ->
  controls c o k h st (fst (fst (handle c o k h r st))) (snd (fst (handle c o k h r st))).
Proof.
  intros c o k h r st L PT. unfold handle. destruct (uuid_eqb (h_interface h) uuid_io_device) eqn:HI.
  2:{ left. destruct (uuid_eqb (h_interface h) uuid_epmap); [|split; [apply noexec_nil|apply kepts_refl]].
      cbn [fst snd]. split; [intros j; reflexivity|]. apply kepts_set; [exact L|]. intros U.
      repeat match goal with _ : context [if ?b then _ else _] |- _ => destruct b | |- context [if ?b then _ else _] => destruct b end; cbn in *; auto. }
  apply uuid_eqb_eq in HI. unfold rpc_request.
  assert (N : forall op r0 err, op <> 4 -> noexec [Execute k op r0 err]).
  { intros op r0 err O j. unfold executed. cbn [filter is_exec]. destruct (Z.eqb_spec op 4); [contradiction|]. rewrite andb_false_r. reflexivity. }
  destruct (Z.eqb_spec (h_opnum h) op_connect) as [O|_].
  { left. pose proof (do_connect_kepts c o k (s_err (sess_at c st k)) st L) as H. pose proof (do_connect_noexec c o k (s_err (sess_at c st k)) st) as H2.
    destruct (do_connect c o k _ st) as [st1 e]. cbn [fst snd] in *. split; [|exact H]. apply (noexec_app [_] e); [apply N; rewrite O; discriminate|exact H2]. }
  destruct (Z.eqb_spec (h_opnum h) op_release) as [O|_].
  { left. pose proof (do_release_kepts c o k (s_err (sess_at c st k)) st L) as H. pose proof (do_release_noexec c o k (s_err (sess_at c st k)) st) as H2.
    destruct (do_release c o k _ st) as [st1 e]. cbn [fst snd] in *. split; [|exact H]. apply (noexec_app [_] e); [apply N; rewrite O; discriminate|exact H2]. }
  destruct (Z.eqb_spec (h_opnum h) op_read) as [O|_]; [left; split; [apply N; rewrite O; discriminate|apply kill_if_kepts; exact L]|].
  destruct (Z.eqb_spec (h_opnum h) op_write) as [O|_]; [left; split; [apply N; rewrite O; discriminate|apply kill_if_kepts; exact L]|].
  destruct (Z.eqb_spec (h_opnum h) op_control) as [O|_].
  { destruct (o_parsed o) eqn:OP; [|left; split; [apply noexec_nil|apply kepts_refl]].
    destruct (Z.eqb_spec (s_dseq (sess_at c st k)) (h_seq h)) as [Q|Q]; [left; split; [intros j; reflexivity|apply kepts_refl]|]. right. cbn [fst snd].
    split; [exact HI|]. split; [exact O|]. split; [exact PT|]. split; [exact OP|]. split; [exact Q|].
    split; [exists r, (s_err (sess_at c st k)); unfold executed; cbn [filter is_exec]; rewrite O, Nat.eqb_refl; reflexivity|].
    split; [intros j J; unfold executed; cbn [filter is_exec]; destruct (Nat.eqb_spec k j); [congruence|reflexivity]|].
    assert (L2 : (k < length (n_sess (kill_if c (is_ekill (o_effect o)) k st)))%nat) by (unfold kill_if; rewrite length_set_sess; exact L).
    rewrite sess_at_set_same by exact L2. split.
    - unfold kill_if. cbn [s_used with_dseq s_dseq]. rewrite sess_at_set_same by exact L. cbn [s_used with_kill]. auto.
    - intros j J. rewrite sess_at_set_other by exact J. unfold kill_if. rewrite sess_at_set_other by exact J. apply kept_refl. }
  destruct (Z.eqb_spec (h_opnum h) op_read_implicit) as [O|_]; [left; split; [apply N; rewrite O; discriminate|apply kill_if_kepts; exact L]|].
  left. split; [apply noexec_nil|apply kepts_refl].
Qed.
Lemma send_kepts : forall c o k st st' e, (k < length (n_sess st))%nat -> send_with_timeout c o k st = Ok (st', e) -> kepts c st st'.
Proof.
  intros c o k st st' e L E. unfold send_with_timeout in E. destruct (s_socket (sess_at c st k) <? 0); [injection E as <- <-; apply kepts_refl|].
  destruct (0 <? s_counter (sess_at c st k)).
  - cbn zeta in E. destruct (send_once o k _) as [[ok e0]| |]; try discriminate. cbn [obind] in E. injection E as <- <-.
    apply kepts_set; [exact L|]. intros U. cbn in *. auto.
  - cbn zeta in E. destruct (s_ar (sess_at c st k)) as [i|]; [|discriminate].
    set (st1 := set_sess st k (with_resend (sess_at c st k) false (s_counter (sess_at c st k)))) in *.
    assert (I1 : kepts c st st1) by (apply kepts_set; [exact L|]; intros U; cbn in *; auto).
    pose proof (abort_kepts c i st1) as I2. pose proof (abort_sessions c i st1) as (LA & _ & _). destruct (abort c i st1) as [st2 e2]. cbn [fst] in *.
    assert (I3 : kepts c st st2) by (eapply kepts_trans; eassumption).
    destruct (_ && _); injection E as <- <-; [|exact I3]. eapply kepts_trans; [exact I3|]. apply kepts_set.
    + rewrite LA. unfold st1. rewrite length_set_sess. exact L.
    + intros U. cbn in *. auto.
Qed.
Lemma request_start_kepts : forall c o k h m be st st1 a b, (k < length (n_sess st))%nat -> request_start c o k h m be st = Ok (st1, a, b) -> kepts c st st1.
Proof.
  intros c o k h m be st st1 a b L E. unfold request_start in E. destruct (put_header _ _ m 0) as [[[b0 start] lp]| |]; try discriminate. cbn [obind] in E.
  destruct (poke b0 start _) as [b1| |]; try discriminate. cbn [obind] in E. injection E as <- _ _. apply kepts_set; [exact L|].
  destruct (h_opnum h =? op_release); intros U; cbn in *; auto.
Qed.
Lemma request_send_kepts : forall c o k h m a b be st st' e, (k < length (n_sess st))%nat -> request_send c o k h m a b be st = Ok (st', e) -> kepts c st st'.
Proof.
  intros c o k h m a b be st st' e L E. unfold request_send in E. cbn zeta in E.
  destruct (s_out_len (sess_at c st k) <? max_payload); cbn [obind] in E.
  - destruct (put_len be _ _ _ b) as [b3| |]; try discriminate. cbn [obind] in E.
    destruct (send_once o k _) as [[ok e0]| |]; try discriminate. cbn [obind] in E. injection E as <- <-. apply kepts_set; [exact L|]. intros U; cbn in *; auto.
  - destruct (put_header _ _ m 0) as [[[b0 start] lp]| |]; try discriminate. cbn [obind] in E.
    destruct (put_len be _ _ _ lp) as [b3| |]; try discriminate. cbn [obind] in E.
    apply send_kepts in E; [|rewrite length_set_sess; exact L]. eapply kepts_trans; [|exact E]. apply kepts_set; [exact L|]. intros U; cbn in *; auto.
Qed.
Lemma send_buffer_noexec : forall o k s b, noexec (snd (send_buffer o k s b)).
Proof. intros o k s b. unfold send_buffer. destruct b; [apply noexec_nil|]. destruct (_ || _); [apply noexec_nil|]. intros j. reflexivity. Qed.
Lemma send_once_noexec : forall o k s ok e, send_once o k s = Ok (ok, e) -> noexec e.
Proof. intros o k s ok e E. unfold send_once in E. destruct (slice _ _ _) as [b| |]; try discriminate. cbn [obind] in E. injection E as E. pose proof (send_buffer_noexec o k s b) as N. rewrite E in N. exact N. Qed.
Lemma send_noexec : forall c o k st st' e, send_with_timeout c o k st = Ok (st', e) -> noexec e.
Proof.
  intros c o k st st' e E. unfold send_with_timeout in E. destruct (s_socket (sess_at c st k) <? 0); [apply ok_inv in E; destruct E as [_ <-]; apply noexec_nil|].
  destruct (0 <? s_counter (sess_at c st k)).
  - cbn zeta in E. destruct (send_once o k _) as [[ok e0]| |] eqn:S; try discriminate. cbn [obind] in E. apply ok_inv in E. destruct E as [_ <-]. exact (send_once_noexec _ _ _ _ _ S).
  - cbn zeta in E. destruct (s_ar (sess_at c st k)) as [i|]; [|discriminate].
    pose proof (abort_noexec c i (set_sess st k (with_resend (sess_at c st k) false (s_counter (sess_at c st k))))) as N. destruct (abort c i _) as [st2 e2]. cbn [snd] in N.
    destruct (_ && _); apply ok_inv in E; destruct E as [_ <-]; [|exact N]. apply noexec_app; [exact N|]. intros j. reflexivity.
Qed.
Lemma request_send_noexec : forall c o k h m a b be st st' e, request_send c o k h m a b be st = Ok (st', e) -> noexec e.
Proof.
  intros c o k h m a b be st st' e E. unfold request_send in E. cbn zeta in E.
  destruct (s_out_len (sess_at c st k) <? max_payload); cbn [obind] in E.
  - destruct (put_len be _ _ _ b) as [b3| |]; try discriminate. cbn [obind] in E.
    destruct (send_once o k _) as [[ok e0]| |] eqn:S; try discriminate. cbn [obind] in E. apply ok_inv in E. destruct E as [_ <-]. exact (send_once_noexec _ _ _ _ _ S).
  - destruct (put_header _ _ m 0) as [[[b0 start] lp]| |]; try discriminate. cbn [obind] in E.
    destruct (put_len be _ _ _ lp) as [b3| |]; try discriminate. cbn [obind] in E. exact (send_noexec _ _ _ _ _ _ E).
Qed.
Lemma request_start_same : forall c o k h m be st st1 a b, (k < length (n_sess st))%nat -> request_start c o k h m be st = Ok (st1, a, b) ->
  forall j, s_used (sess_at c st1 j) = s_used (sess_at c st j) /\ s_dseq (sess_at c st1 j) = s_dseq (sess_at c st j).
Proof.
  intros c o k h m be st st1 a b L E. unfold request_start in E. destruct (put_header _ _ m 0) as [[[b0 start] lp]| |]; try discriminate. cbn [obind] in E.
  destruct (poke b0 start _) as [b1| |]; try discriminate. cbn [obind] in E. injection E as <- _ _. apply same_set; [exact L| |]; destruct (h_opnum h =? op_release); reflexivity.
Qed.
Lemma answer_request_controls : forall c o k h r st st' e, (k < length (n_sess st))%nat -> h_ptype h = 0 -> answer_request c o k h r st = Ok (st', e) -> controls c o k h st st' e.
Proof.
  intros c o k h r st st' e L PT E. unfold answer_request in E.
  destruct (request_limit c h r) as [[[m r1] be]| |]; try discriminate. cbn [obind] in E.
  destruct (request_start c o k h m be st) as [[[st1 start] lpos]| |] eqn:E1; try discriminate. cbn [obind] in E.
  pose proof (request_start_local _ _ _ _ _ _ _ _ _ _ E1) as [[L1 _] _]. pose proof (request_start_same _ _ _ _ _ _ _ _ _ _ L E1) as S1.
  pose proof (handle_controls c o k h (set_be r1 be) st1 ltac:(lia) PT) as H2. pose proof (handle_others c o k h (set_be r1 be) st1) as [L2 _].
  destruct (handle c o k h (set_be r1 be) st1) as [[st2 e2] prm] eqn:E2. cbn [fst snd] in *.
  destruct (request_send c o k h m start lpos be st2) as [[st3 e3]| |] eqn:E3; try discriminate. cbn [obind] in E. apply ok_inv in E. destruct E as [<- <-].
  apply (controls_pre c o k h st st1); [|exact S1]. apply (controls_post c o k h st1 st2 st3 e2); [exact H2|refine (request_send_kepts _ _ _ _ _ _ _ _ _ _ _ _ E3); lia|].
  apply noexec_app; [exact (request_send_noexec _ _ _ _ _ _ _ _ _ _ _ E3)|]. destruct prm; [|apply noexec_nil]. destruct (s_ar _); [intros j; reflexivity|apply noexec_nil].
Qed.
Lemma next_fragment_noexec : forall c o k h r st st' e, next_fragment c o k h r st = Ok (st', e) -> noexec e.
Proof.
  intros c o k h r st st' e E. unfold next_fragment in E. cbn zeta in E. destruct (_ <? s_out_len _).
  - repeat match type of E with
    | (do x <- ?a; _) = _ => let F := fresh in destruct a as [[[? ?] ?]| |] eqn:F; try discriminate; cbn [obind] in E
    | (do x <- ?a; _) = _ => let F := fresh in destruct a as [?| |] eqn:F; try discriminate; cbn [obind] in E
    end.
    exact (send_noexec _ _ _ _ _ _ E).
  - apply ok_inv in E. destruct E as [_ <-]. apply noexec_nil.
Qed.
Lemma answer_noexec : forall o k h s e, answer_ping o k h s = Ok e \/ answer_reject o k h s = Ok e \/ answer_ack o k h s = Ok e -> noexec e.
Proof.
  intros o k h s e [E|[E|E]]; unfold answer_ping, answer_reject, answer_ack in E; destruct (put_header _ _ _ _) as [[[b pos] lp]| |]; try discriminate; cbn [obind] in E.
  - destruct (slice _ _ _) as [d| |]; try discriminate. cbn [obind] in E. injection E as <-. apply send_buffer_noexec.
  - destruct (put_u32 _ _ _) as [w| |]; try discriminate. cbn [obind] in E. destruct (w_buf w); [|discriminate].
    destruct (slice _ _ _) as [d| |]; try discriminate. cbn [obind] in E. injection E as <-. apply send_buffer_noexec.
  - destruct (slice _ _ _) as [d| |]; try discriminate. cbn [obind] in E. injection E as <-. apply send_buffer_noexec.
Qed.

Lemma next_fragment_kepts : forall c o k h r st st' e, (k < length (n_sess st))%nat -> next_fragment c o k h r st = Ok (st', e) -> kepts c st st'.
Proof.
  intros c o k h r st st' e L E. unfold next_fragment in E. cbn zeta in E. destruct (_ <? s_out_len _).
  - repeat match type of E with
    | (do x <- ?a; _) = _ => let F := fresh in destruct a as [[[? ?] ?]| |] eqn:F; try discriminate; cbn [obind] in E
    | (do x <- ?a; _) = _ => let F := fresh in destruct a as [?| |] eqn:F; try discriminate; cbn [obind] in E
    end.
    apply send_kepts in E; [|rewrite length_set_sess; exact L]. eapply kepts_trans; [|exact E]. apply kepts_set; [exact L|]. intros U; cbn in *; auto.
  - injection E as <- <-. apply kepts_set; [exact L|]. intros U; cbn in *; auto.
Qed.
Lemma act_controls : forall c o k fresh h r st st' e, (k < length (n_sess st))%nat -> act c o k fresh h r st = Ok (st', e) -> controls c o k h st st' e.
Proof.
  intros c o k fresh h r st st' e L E. unfold act in E. cbn zeta in E.
  set (cl := set_sess st k (with_out (sess_at c st k) (s_out (sess_at c st k)) 0 0 0 0)) in *.
  assert (I1 : kepts c st cl) by (apply kepts_set; [exact L|]; intros U; cbn in *; auto).
  assert (LC : length (n_sess cl) = length (n_sess st)) by apply length_set_sess.
  destruct (h_ptype h =? pt_ping).
  { destruct (answer_ping o k h _) as [e0| |] eqn:A; try discriminate. cbn [obind] in E. apply ok_inv in E. destruct E as [<- <-].
    left. split; [apply (answer_noexec o k h (sess_at c st k)); auto|]. eapply kepts_trans; [exact I1|]. apply kepts_set; [lia|]. intros U; cbn in *; auto. }
  destruct (Z.eqb_spec (h_ptype h) pt_request) as [PT|PT].
  { apply (controls_pre c o k h st cl); [apply (answer_request_controls c o k h r); [lia|exact PT|exact E]|]. apply same_set; [exact L|reflexivity|reflexivity]. }
  left. destruct (h_ptype h =? pt_frag_ack); [split; [exact (next_fragment_noexec _ _ _ _ _ _ _ _ E)|exact (next_fragment_kepts _ _ _ _ _ _ _ _ L E)]|].
  destruct (h_ptype h =? pt_response).
  { unfold response in E. destruct fresh; [apply ok_inv in E; destruct E as [<- <-]; split; [apply noexec_nil|apply kill_if_kepts; exact L]|].
    destruct (get_ndr r) as [[nd r1]| |]; try discriminate. cbn [obind] in E. destruct (h_opnum h =? op_control).
    - destruct (s_ar (sess_at c st k)); [|discriminate]. apply ok_inv in E. destruct E as [<- <-]. split; [intros j; reflexivity|apply kill_if_kepts; exact L].
    - apply ok_inv in E. destruct E as [<- <-]. split; [apply noexec_nil|apply kepts_refl]. }
  destruct (_ || _).
  { unfold cancel in E.
    assert (H : let p := match s_ar (sess_at c st k) with Some i => abort c i st | None => (st, []) end in kepts c st (fst p) /\ length (n_sess (fst p)) = length (n_sess st) /\ noexec (snd p)).
    { destruct (s_ar (sess_at c st k)); [split; [apply abort_kepts|split; [apply abort_sessions|apply abort_noexec]]|split; [apply kepts_refl|split; [reflexivity|apply noexec_nil]]]. }
    cbn zeta in H. destruct (match s_ar (sess_at c st k) with Some i => abort c i st | None => (st, []) end) as [st1 e1].
    apply ok_inv in E. destruct E as [<- <-]. cbn [fst snd] in H. destruct H as (H1 & H2 & H3). split; [exact H3|]. eapply kepts_trans; [exact H1|]. apply kepts_set; [lia|]. intros U; cbn in *; auto. }
  apply ok_inv in E. destruct E as [<- <-]. split; [apply noexec_nil|apply kepts_refl].
Qed.
Lemma collect_same : forall c ip port h frame r s s' r', collect c ip port h frame r s = Ok (s', r') -> s_used s' = s_used s /\ s_dseq s' = s_dseq s.
Proof.
  intros c ip port h frame r s s' r' E. unfold collect in E. cbn zeta in E.
  destruct (h_frag h =? 0); [apply ok_inv in E; destruct E as [<- _]; split; reflexivity|].
  assert (H : let s1 := (if h_fragnmb h =? 0 then begin_message ip port h s else if Bool.eqb (s_be s) (h_be h) then s else with_err s true) in s_used s1 = s_used s /\ s_dseq s1 = s_dseq s).
  { cbn zeta. destruct (h_fragnmb h =? 0); [split; reflexivity|]. destruct (Bool.eqb _ _); split; reflexivity. }
  cbn zeta in H. revert E H. generalize (if h_fragnmb h =? 0 then begin_message ip port h s else if Bool.eqb (s_be s) (h_be h) then s else with_err s true).
  intros s1 E H. destruct (negb _); [apply ok_inv in E; destruct E as [<- _]; exact H|]. destruct (_ <? _); [apply ok_inv in E; destruct E as [<- _]; exact H|].
  destruct (slice frame _ _) as [d| |]; try discriminate. cbn [obind] in E.
  destruct (poke (s_in s1) _ d) as [b| |]; try discriminate. cbn [obind] in E. apply ok_inv in E. destruct E as [<- _]. exact H.
Qed.
Lemma session_step_controls : forall c o ip port frame h r k fresh st st' e, (k < length (n_sess st))%nat ->
  session_step c o ip port frame h r k fresh st = Ok (st', e) -> controls c o k h st st' e.
Proof.
  intros c o ip port frame h r k fresh st st' e L E. apply session_step_inv in E. destruct E as (s1 & r1 & st3 & e3 & E1 & E2 & E3). cbn zeta in E1, E2.
  set (s2 := with_resend s1 false (s_counter s1)) in *. set (st2 := set_sess st k s2) in *.
  assert (L2 : (k < length (n_sess st2))%nat) by (unfold st2; rewrite length_set_sess; exact L).
  assert (K2 : sess_at c st2 k = s2) by (apply sess_at_set_same; exact L).
  assert (A1 : s_used s2 = s_used (sess_at c st k) /\ s_dseq s2 = s_dseq (sess_at c st k)).
  { destruct (max_body <? h_bodylen h); [destruct E1 as [-> _]; split; reflexivity|]. apply collect_same in E1. exact E1. }
  apply (controls_pre c o k h st st2); [|apply same_set; [exact L|apply A1|apply A1]].
  assert (A2 : controls c o k h st2 st3 e3).
  { destruct (max_body <? h_bodylen h).
    - destruct E2 as [E2 ->]. left. split; [apply (answer_noexec o k h s2); auto|]. apply kepts_set; [exact L2|]. rewrite K2. intros U; cbn in *; auto.
    - destruct (_ || _); [eapply act_controls; eassumption|]. destruct (h_nofack h =? 0); destruct E2 as [E2 ->]; left; (split; [|apply kepts_refl]).
      + apply (answer_noexec o k h s2). auto.
      + rewrite E2. apply noexec_nil. }
  destruct (s_kill (sess_at c st3 k)); destruct E3 as [-> ->]; [|exact A2].
  apply (controls_post c o k h st2 st3); [exact A2|apply release_kepts|apply release_noexec].
Qed.


(** * Steps *)

(** The input is a datagram with this header. *)
Definition has_header (x : input) (h : rpch) : Prop :=
  match x with
  | IDatagram ip port frame len old => 0 < len /\ exists r, get_dce_rpc_header old old old (mkRd (Some frame) len false POk 0) = Ok (h, r)
  | _ => False
  end.

Lemma kept_used : forall s s', kept s s' -> s_used s' = true -> s_dseq s' = s_dseq s.
Proof. intros s s' K U. apply (K U). Qed.

Lemma step_controls : forall c x st st' e k, cfg_ok c -> net_ok c st -> step c x st = Ok (st', e) -> s_used (sess_at c st k) = true ->
  (executed k e = [] /\ (s_used (sess_at c st' k) = true -> s_dseq (sess_at c st' k) = s_dseq (sess_at c st k))) \/
  exists h r err, has_header (fst x) h /\ s_dseq (sess_at c st k) <> h_seq h /\ executed k e = [Execute k 4 r err] /\
    (s_used (sess_at c st' k) = true -> s_dseq (sess_at c st' k) = h_seq h).
Proof.
  intros c [x o] st st' e k C N E U. cbn [fst]. destruct x as [ip port frame len old|j|j|i|i sock obj]; cbn [step has_header] in *.
  - unfold datagram in E. destruct (Z.leb_spec len 0) as [L0|L0]; [apply ok_inv in E; destruct E as [<- <-]; left; auto|].
    destruct (get_dce_rpc_header old old old (mkRd (Some frame) len false POk 0)) as [[h r]| |] eqn:G; try discriminate. cbn [obind] in E.
    rewrite packet_steps in E. destruct (session_for c o ip port h st) as [[[j fresh] st1]|] eqn:SF; [|apply ok_inv in E; destruct E as [<- <-]; left; auto].
    destruct (session_for_ok _ _ _ _ _ _ _ _ _ C N SF) as (N1 & L1 & _ & O1 & F1 & F2).
    assert (KK : sess_at c st1 k = sess_at c st k).
    { destruct (Nat.eq_dec k j) as [->|D]; [|apply O1; exact D]. destruct fresh; [destruct (F2 eq_refl) as [X _]; congruence|]. destruct (F1 eq_refl) as [-> _]. reflexivity. }
    apply session_step_controls in E; [|exact L1]. destruct E as [[A B]|(_ & _ & _ & _ & A5 & (r' & err & A6) & A7 & A8 & A9)].
    + left. split; [apply A|]. intros U'. rewrite <- KK. exact (kept_used _ _ (B k) U').
    + destruct (Nat.eq_dec k j) as [->|D].
      * right. exists h, r', err. split; [split; [exact L0|exists r; reflexivity]|]. rewrite <- KK. split; [exact A5|]. split; [exact A6|]. intros U'. apply (A8 U').
      * left. split; [apply A7; exact D|]. intros U'. rewrite <- KK. exact (kept_used _ _ (A9 k D) U').
  - left. destruct (s_resend (sess_at c st j)) eqn:RS; [|apply ok_inv in E; destruct E as [<- <-]; auto].
    split; [exact (send_noexec _ _ _ _ _ _ E k)|]. intros U'. refine (kept_used _ _ (send_kepts _ _ _ _ _ _ _ E k) U').
    destruct (Nat.lt_ge_cases j (length (n_sess st))) as [L|L]; [exact L|]. unfold sess_at in RS. rewrite nth_overflow in RS by exact L. discriminate.
  - left. destruct (s_epmtimer _); apply ok_inv in E || injection E as E; [|destruct E as [<- <-]; auto].
    pose proof (release_noexec c j st) as X. pose proof (release_kepts c j st) as Y. rewrite E in X, Y. split; [apply X|]. apply kept_used, Y.
  - left. injection E as E. pose proof (abort_noexec c i st) as X. pose proof (abort_kepts c i st) as Y. rewrite E in X, Y. split; [apply X|]. apply kept_used, Y.
  - left. destruct (ccontrol_shape _ _ _ _ _ _ _ _ E) as [[-> ->]|(j & s1 & F & _ & _ & _ & _ & _ & E1)]; [auto|].
    destruct (first_free_spec _ _ _ F) as [LF X]. specialize (X (blank c)). rewrite Nat.sub_0_r in X.
    assert (D : k <> j) by (intros ->; unfold sess_at in U; congruence).
    split; [exact (send_noexec _ _ _ _ _ _ E1 k)|]. intros U'.
    assert (LJ : (j < length (n_sess (set_sess st j s1)))%nat) by (rewrite length_set_sess; lia).
    rewrite (kept_used _ _ (send_kepts _ _ _ _ _ _ LJ E1 k) U'). rewrite sess_at_set_other by exact D. reflexivity.
Qed.

(** A control request in one datagram. *)
Definition control_request (x : input) (h : rpch) : Prop :=
  has_header x h /\ h_ptype h = 0 /\ h_frag h = 0 /\ h_bodylen h <= 1384 /\ h_interface h = uuid_io_device /\ h_opnum h = 4.

Lemma answer_request_control : forall c o k h r st st' e, (k < length (n_sess st))%nat -> h_interface h = uuid_io_device -> h_opnum h = 4 -> o_parsed o = true ->
  answer_request c o k h r st = Ok (st', e) ->
  if s_dseq (sess_at c st k) =? h_seq h then In (Repeated k 4) e else exists r' err, In (Execute k 4 r' err) e.
Proof.
  intros c o k h r st st' e L HI HO OP E. unfold answer_request in E.
  destruct (request_limit c h r) as [[[m r1] be]| |]; try discriminate. cbn [obind] in E.
  destruct (request_start c o k h m be st) as [[[st1 start] lpos]| |] eqn:E1; try discriminate. cbn [obind] in E.
  pose proof (request_start_same _ _ _ _ _ _ _ _ _ _ L E1 k) as [_ S1]. unfold handle in E. rewrite HI, (proj2 (uuid_eqb_eq uuid_io_device uuid_io_device) eq_refl) in E.
  unfold rpc_request in E. rewrite HO, OP in E. cbn [Z.eqb Pos.eqb op_connect op_release op_read op_write op_control] in E. rewrite S1 in E.
  destruct (s_dseq (sess_at c st k) =? h_seq h); cbn zeta in E;
    (match type of E with (do w <- ?a; _) = _ => destruct a as [[st3 e3]| |]; try discriminate end); cbn [obind] in E; apply ok_inv in E; destruct E as [_ <-].
  - left. reflexivity.
  - eexists _, _. left. reflexivity.
Qed.

Lemma control_step : forall c x h k st st' e, cfg_ok c -> net_ok c st -> step c x st = Ok (st', e) -> control_request (fst x) h -> o_parsed (snd x) = true ->
  s_used (sess_at c st k) = true -> s_uuid (sess_at c st k) = h_activity h ->
  (forall j, s_used (sess_at c st j) = true -> s_uuid (sess_at c st j) = h_activity h -> j = k) ->
  if s_dseq (sess_at c st k) =? h_seq h then In (Repeated k 4) e else exists r err, In (Execute k 4 r err) e.
Proof.
  intros c [x o] h k st st' e C N E (HH & PT & F & B & HI & HO) OP U UU UQ. cbn [fst snd] in *.
  destruct x as [ip port frame len old| | | |]; try contradiction. destruct HH as [L0 [r G]]. cbn [step] in E. unfold datagram in E.
  destruct (Z.leb_spec len 0); [lia|]. rewrite G in E. cbn [obind] in E. rewrite packet_steps in E. unfold session_for in E.
  rewrite (locate_only c st k _ U UU UQ) in E. pose proof (used_lt c st k U) as L.
  unfold session_step in E. cbn zeta in E. change max_body with 1384 in E. destruct (Z.ltb_spec 1384 (h_bodylen h)); [lia|].
  unfold collect in E. rewrite F in E. cbn [Z.eqb obind orb] in E. unfold act in E. cbn zeta in E. rewrite PT in E. cbn [Z.eqb Pos.eqb pt_ping pt_request] in E.
  fold (acked ip port h (sess_at c st k)) in E. rewrite sess_at_set_same, set_sess_twice in E by exact L.
  change (with_out (acked ip port h (sess_at c st k)) (s_out (acked ip port h (sess_at c st k))) 0 0 0 0) with (started ip port h (sess_at c st k)) in E.
  destruct (answer_request c o k h r _) as [[st3 e3]| |] eqn:E3; try discriminate. cbn [obind] in E.
  apply answer_request_control in E3; [|rewrite length_set_sess; exact L|exact HI|exact HO|exact OP].
  rewrite sess_at_set_same in E3 by exact L. change (s_dseq (started ip port h (sess_at c st k))) with (s_dseq (sess_at c st k)) in E3.
  assert (I : forall y, In y e3 -> In y e).
  { intros y I. destruct (s_kill (sess_at c st3 k)); [destruct (release c k st3) as [st4 e4]; apply ok_inv in E; destruct E as [_ <-]; apply in_or_app; left; exact I|].
    apply ok_inv in E. destruct E as [_ <-]. exact I. }
  destruct (s_dseq (sess_at c st k) =? h_seq h); [apply I; exact E3|]. destruct E3 as (r' & err & X). exists r', err. apply I. exact X.
Qed.

(** * Theorems *)

(** The session is in use before and after every input. *)
Fixpoint stays (c : cfg) (k : nat) (l : list (input * hres)) (st : net) : Prop :=
  s_used (sess_at c st k) = true /\
  match l with
  | [] => True
  | x :: t => match step c x st with Ok (st1, _) => stays c k t st1 | _ => True end
  end.

Lemma stays_dseq : forall c k l st st' e, cfg_ok c -> net_ok c st -> Forall input_ok l -> stays c k l st -> run c l st = Ok (st', e) -> executed k e = [] ->
  s_used (sess_at c st' k) = true /\ s_dseq (sess_at c st' k) = s_dseq (sess_at c st k).
Proof.
  intros c k l. induction l as [|x l IH]; intros st st' e C N V S R X; cbn [run stays] in *; destruct S as [U S].
  - apply ok_inv in R. destruct R as [<- _]. auto.
  - destruct (step c x st) as [[st1 e1]| |] eqn:E; try discriminate. cbn [obind] in R.
    destruct (run c l st1) as [[st2 e2]| |] eqn:E2; try discriminate. cbn [obind] in R. apply ok_inv in R. destruct R as [<- <-].
    rewrite executed_app in X. apply app_eq_nil in X. destruct X as [X1 X2]. inversion V; subst.
    destruct (IH st1 st2 e2 C (step_net_ok _ _ _ _ _ C N ltac:(eassumption) E) ltac:(assumption) S E2 X2) as [A B]. split; [exact A|].
    assert (U1 : s_used (sess_at c st1 k) = true) by (destruct l; apply S).
    destruct (step_controls c x st st1 e1 k C N E U) as [[_ D]|(h & r & err & _ & _ & D & _)]; [rewrite B; apply D; exact U1|].
    rewrite D in X1. discriminate.
Qed.

(** After a control request [x1] that was executed, and as long as the session exists and
    no other one is executed in it: the next control request of this client is executed
    if its sequence number is another one, and otherwise answered as repeated, exactly.
    Not stated: requests that are older than the last one, and the first request of a
    session (see below). *)
Theorem C98_once_partial : forall c l st x1 h1 st1 e1 k l2 st2 e2 x3 h3 st3 e3, cfg_ok c -> reached c l st ->
  input_ok x1 -> step c x1 st = Ok (st1, e1) -> has_header (fst x1) h1 -> s_used (sess_at c st k) = true -> executed k e1 <> [] ->
  Forall input_ok l2 -> stays c k l2 st1 -> run c l2 st1 = Ok (st2, e2) -> executed k e2 = [] ->
  input_ok x3 -> control_request (fst x3) h3 -> o_parsed (snd x3) = true ->
  s_uuid (sess_at c st2 k) = h_activity h3 -> (forall j, s_used (sess_at c st2 j) = true -> s_uuid (sess_at c st2 j) = h_activity h3 -> j = k) ->
  step c x3 st2 = Ok (st3, e3) ->
  (h_seq h3 = h_seq h1 -> executed k e3 = [] /\ In (Repeated k 4) e3) /\
  (h_seq h3 <> h_seq h1 -> exists r err, executed k e3 = [Execute k 4 r err]).
Proof.
  intros c l st x1 h1 st1 e1 k l2 st2 e2 x3 h3 st3 e3 C R V1 E1 H1 U X1 V2 S2 R2 X2 V3 Q3 OP UU UQ E3. pose proof (reached_ok c l st C R) as N.
  pose proof (step_net_ok _ _ _ _ _ C N V1 E1) as N1. destruct (stays_dseq c k l2 st1 st2 e2 C N1 V2 S2 R2 X2) as [U2 D2].
  assert (U1 : s_used (sess_at c st1 k) = true) by (destruct l2; apply S2).
  assert (D1 : s_dseq (sess_at c st1 k) = h_seq h1).
  { destruct (step_controls c x1 st st1 e1 k C N E1 U) as [[Y _]|(h & r & err & HH & _ & _ & Y)]; [contradiction|].
    rewrite (Y U1). destruct (fst x1) as [ip port frame len old| | | |]; try contradiction. destruct HH as [_ [ra Ga]]. destruct H1 as [_ [rb Gb]].
    rewrite Ga in Gb. apply ok_inv in Gb. destruct Gb as [-> _]. reflexivity. }
  assert (N2 : net_ok c st2) by (eapply run_net_ok; eauto).
  pose proof (control_step c x3 h3 k st2 st3 e3 C N2 E3 Q3 OP U2 UU UQ) as P. rewrite D2, D1 in P.
  destruct (step_controls c x3 st2 st3 e3 k C N2 E3 U2) as [[Y _]|(h & r & err & HH & Y1 & Y2 & _)].
  - split; intros EQ.
    + rewrite EQ, Z.eqb_refl in P. auto.
    + destruct (Z.eqb_spec (h_seq h1) (h_seq h3)); [congruence|]. destruct P as (r & err & I). exfalso.
      assert (Z1 : In (Execute k 4 r err) (executed k e3)) by (apply filter_In; split; [exact I|]; cbn; rewrite Nat.eqb_refl; reflexivity). rewrite Y in Z1. exact Z1.
  - assert (HE : h = h3).
    { destruct Q3 as [Q3 _]. destruct (fst x3) as [ip port frame len old| | | |]; try contradiction. destruct HH as [_ [ra Ga]]. destruct Q3 as [_ [rb Gb]].
      rewrite Ga in Gb. apply ok_inv in Gb. apply Gb. }
    subst h. rewrite D2, D1 in Y1. split; intros EQ; [congruence|]. exists r, err. exact Y2.
Qed.
Print Assumptions C98_once_partial.

(** * Concrete cases *)
Definition control_in (sq : Z) : input := send_to 1 50001 0 0 0 0 sq 4 uuid_io_device ndr_bytes.
Definition control (sq : Z) : input * hres := (control_in sq, plain).
Definition control_header (sq : Z) : rpch := header 0 0 0 0 sq 4 20 uuid_io_device (client 1).
Definition reading : input * hres := question [1; 2; 3].
Definition is_control (sq : Z) : bool :=
  match control_in sq with
  | IDatagram ip port frame len old =>
    match get_dce_rpc_header old old old (mkRd (Some frame) len false POk 0) with
    | Ok (h, _) => (0 <? len) && ((h_ptype h =? 0) && ((h_frag h =? 0) && ((h_bodylen h <=? 1384) && (uuid_eqb (h_interface h) uuid_io_device && ((h_opnum h =? 4) && ((h_seq h =? sq) && uuid_eqb (h_activity h) (client 1)))))))
    | _ => false
    end
  | _ => false
  end.
Lemma is_control_ok : forall sq, is_control sq = true -> exists h, control_request (control_in sq) h /\ h_seq h = sq /\ h_activity h = client 1.
Proof.
  intros sq H. unfold is_control, control_request, has_header in *. destruct (control_in sq) as [ip port frame len old| | | |]; try discriminate H.
  destruct (get_dce_rpc_header old old old _) as [[h r]| |] eqn:G; try discriminate H. exists h.
  rewrite !andb_true_iff, Z.ltb_lt, !Z.eqb_eq, Z.leb_le, !uuid_eqb_eq in H. destruct H as (A & B & D & E & F & I & J & K). split; [|auto].
  split; [split; [exact A|exists r; reflexivity]|auto].
Qed.
Definition once (k : nat) (e : list ev) : bool := match executed k e with [_] => true | _ => false end.
Definition never (k : nat) (e : list ev) : bool := match executed k e with [] => true | _ => false end.
Lemma once_ok : forall k e, once k e = true -> exists x, executed k e = [x].
Proof. intros k e H. unfold once in H. destruct (executed k e) as [|x [|]]; try discriminate H. eauto. Qed.
Lemma never_ok : forall k e, never k e = true -> executed k e = [].
Proof. intros k e H. unfold never in H. destruct (executed k e); [reflexivity|discriminate H]. Qed.

(** The hypotheses of the theorem are met: a connection, a control request that is
    executed, a read request, and the control request again. *)
Example C98_example : exists st h st1 e1 st2 e2 st3 e3, cfg_ok small /\ reached small opened st /\
  input_ok (control 5) /\ step small (control 5) st = Ok (st1, e1) /\ control_request (fst (control 5)) h /\ s_used (sess_at small st 0) = true /\ executed 0 e1 <> [] /\
  Forall input_ok [reading] /\ stays small 0 [reading] st1 /\ run small [reading] st1 = Ok (st2, e2) /\ executed 0 e2 = [] /\ o_parsed (snd (control 5)) = true /\
  s_uuid (sess_at small st2 0) = h_activity h /\ (forall j, s_used (sess_at small st2 j) = true -> s_uuid (sess_at small st2 j) = h_activity h -> j = 0%nat) /\
  step small (control 5) st2 = Ok (st3, e3).
Proof.
  destruct (is_control_ok 5 ltac:(vm_compute; reflexivity)) as (h & Q & SQ & AQ).
  destruct (checked_ok opened (fun st _ => s_used (sess_at small st 0) && stepped (control 5) st (fun st1 e1 => s_used (sess_at small st1 0) && (once 0 e1 &&
    stepped reading st1 (fun st2 e2 => s_used (sess_at small st2 0) && (never 0 e2 && (uuid_eqb (s_uuid (sess_at small st2 0)) (client 1) && (only small st2 (client 1) 0 &&
    stepped (control 5) st2 (fun _ _ => true)))))))))
    as (st & e & RC & R & K); [vm_compute; reflexivity|intros x [<-|[]]; reflexivity|].
  apply andb_prop in K. destruct K as [K0 K]. apply stepped_ok in K; [|reflexivity]. destruct K as (st1 & e1 & V1 & E1 & K). apply andb_prop in K. destruct K as [K1 K]. apply andb_prop in K. destruct K as [K2 K].
  apply stepped_ok in K; [|reflexivity]. destruct K as (st2 & e2 & V2 & E2 & K). apply andb_prop in K. destruct K as [K3 K]. apply andb_prop in K. destruct K as [K4 K].
  apply andb_prop in K. destruct K as [K5 K]. apply andb_prop in K. destruct K as [K6 K]. apply stepped_ok in K; [|reflexivity]. destruct K as (st3 & e3 & V3 & E3 & _).
  destruct (once_ok _ _ K2) as [x X2]. exists st, h, st1, e1, st2, e2, st3, e3. split; [unfold cfg_ok; cbn; lia|]. split; [exact RC|]. split; [exact V1|]. split; [exact E1|]. split; [exact Q|].
  split; [exact K0|]. split; [rewrite X2; intros H; discriminate H|]. split; [constructor; [exact V2|constructor]|]. split; [cbn [stays]; rewrite E2; auto|].
  split; [cbn [run]; rewrite E2; cbn [obind]; rewrite app_nil_r; reflexivity|]. split; [apply never_ok; exact K4|]. split; [reflexivity|]. rewrite AQ. split; [apply uuid_eqb_eq; exact K5|].
  split; [apply only_ok; exact K6|exact E3].
Qed.

(** The property is violated for older requests: numbers 5, 6, and then a late copy of
    the datagram with number 5 is executed again (only the last number is stored). *)
Theorem C98_old_refuted : exists st h st1 e1 st2 e2 st3 e3 a b, cfg_ok small /\ reached small opened st /\ control_request (fst (control 5)) h /\
  input_ok (control 5) /\ step small (control 5) st = Ok (st1, e1) /\ executed 0 e1 = [a] /\
  input_ok (control 6) /\ step small (control 6) st1 = Ok (st2, e2) /\ s_used (sess_at small st2 0) = true /\
  step small (control 5) st2 = Ok (st3, e3) /\ executed 0 e3 = [b].
Proof.
  destruct (is_control_ok 5 ltac:(vm_compute; reflexivity)) as (h & Q & SQ & AQ).
  destruct (checked_ok opened (fun st _ => stepped (control 5) st (fun st1 e1 => once 0 e1 &&
    stepped (control 6) st1 (fun st2 e2 => s_used (sess_at small st2 0) && stepped (control 5) st2 (fun st3 e3 => once 0 e3)))))
    as (st & e & RC & R & K); [vm_compute; reflexivity|intros x [<-|[]]; reflexivity|].
  apply stepped_ok in K; [|reflexivity]. destruct K as (st1 & e1 & V1 & E1 & K). apply andb_prop in K. destruct K as [K1 K].
  apply stepped_ok in K; [|reflexivity]. destruct K as (st2 & e2 & V2 & E2 & K). apply andb_prop in K. destruct K as [K2 K].
  apply stepped_ok in K; [|reflexivity]. destruct K as (st3 & e3 & V3 & E3 & K). destruct (once_ok _ _ K1) as [a A]. destruct (once_ok _ _ K) as [b B].
  exists st, h, st1, e1, st2, e2, st3, e3, a, b. split; [unfold cfg_ok; cbn; lia|]. split; [exact RC|]. split; [exact Q|]. split; [exact V1|]. split; [exact E1|]. split; [exact A|].
  split; [exact V2|]. split; [exact E2|]. split; [exact K2|]. split; [exact E3|exact B].
Qed.
Print Assumptions C98_old_refuted.

(** And for the first request of a session: with the number 4294967295, which a new
    session has as stored number, it is taken for a repetition, although no control
    request was ever executed. *)
Theorem C98_first_refuted : exists st e0 h st1 e1, cfg_ok small /\ Forall input_ok opened /\ run small opened (rpc_init small) = Ok (st, e0) /\ executed 0 e0 = [] /\
  control_request (fst (control 4294967295)) h /\ input_ok (control 4294967295) /\ step small (control 4294967295) st = Ok (st1, e1) /\
  executed 0 e1 = [] /\ In (Repeated 0 4) e1.
Proof.
  destruct (is_control_ok 4294967295 ltac:(vm_compute; reflexivity)) as (h & Q & SQ & AQ).
  destruct (checked_ok opened (fun st e0 => never 0 e0 && stepped (control 4294967295) st (fun st1 e1 => never 0 e1 && existsb (fun x => match x with Repeated 0 op => op =? 4 | _ => false end) e1)))
    as (st & e & RC & R & K); [vm_compute; reflexivity|intros x [<-|[]]; reflexivity|].
  apply andb_prop in K. destruct K as [K0 K]. apply stepped_ok in K; [|reflexivity]. destruct K as (st1 & e1 & V1 & E1 & K). apply andb_prop in K. destruct K as [K1 K2].
  exists st, e, h, st1, e1. split; [unfold cfg_ok; cbn; lia|]. split; [apply RC|]. split; [exact R|]. split; [apply never_ok; exact K0|]. split; [exact Q|]. split; [exact V1|].
  split; [exact E1|]. split; [apply never_ok; exact K1|]. apply existsb_exists in K2. destruct K2 as (x & I & X). destruct x; try discriminate X. destruct k; [|discriminate X]. apply Z.eqb_eq in X. subst. exact I.
Qed.
Print Assumptions C98_first_refuted.
