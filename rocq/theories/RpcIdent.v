(** C94, C95: clients do not disturb each other; which sessions are in use. *)
From Coq Require Import List ZArith Arith Bool Lia.
From Verif Require Import Base CpmModel CpmProps PpmModel PpmProps BlockModel BlockReadLemmas BlockReadProps BlockWriteProps RpcModel RpcLemmas RpcInv RpcStep RpcProps RpcFrame.
Import ListNotations.
Local Open Scope Z_scope.

(** A session that is in use afterwards was in use before, for the same client. *)
Definition ident (s s' : sess) : Prop := s_used s' = true -> s_used s = true /\ s_uuid s' = s_uuid s /\ s_from_me s' = s_from_me s.
Definition idents (c : cfg) (st st' : net) : Prop := forall j, ident (sess_at c st j) (sess_at c st' j).

Lemma ident_refl : forall s, ident s s.
Proof. intros s U. auto. Qed.
Lemma ident_trans : forall a b d, ident a b -> ident b d -> ident a d.
Proof. intros a b d A B U. destruct (B U) as (B1 & B2 & B3). destruct (A B1) as (A1 & A2 & A3). split; [exact A1|]. split; congruence. Qed.
Lemma ident_blank : forall c s, ident s (blank c).
Proof. intros c s U. discriminate. Qed.
Lemma idents_refl : forall c st, idents c st st.
Proof. intros c st j. apply ident_refl. Qed.
Lemma idents_trans : forall c a b d, idents c a b -> idents c b d -> idents c a d.
Proof. intros c a b d A B j. eapply ident_trans; [apply A|apply B]. Qed.
Lemma idents_set : forall c st k s, (k < length (n_sess st))%nat -> ident (sess_at c st k) s -> idents c st (set_sess st k s).
Proof. intros c st k s L H j. rewrite sess_at_set by exact L. destruct (Nat.eqb_spec j k) as [->|]; [exact H|apply ident_refl]. Qed.
Lemma ident_tweak : forall s s', tweak s s' -> ident s s'.
Proof. intros s s' (r & k & a & d & ->) U. cbn in *. auto. Qed.
Lemma ident_same : forall s s', same_out s s' -> ident s s'.
Proof. intros s s' H U. unfold same_out in H. decompose [and] H. split; [congruence|]. split; assumption. Qed.

Lemma abort_idents : forall c i st, idents c st (fst (abort c i st)).
Proof.
  intros c i st j. destruct (abort_sessions c i st) as (_ & _ & S1). destruct (S1 j) as [X|[X _]]; rewrite X; [apply ident_refl|apply ident_blank].
Qed.
Lemma release_idents : forall c k st, idents c st (fst (release c k st)).
Proof.
  intros c k st j. destruct (release_sessions c k st) as (_ & _ & S1). destruct (S1 j) as [X|[_ X]]; rewrite X; [apply ident_refl|apply ident_blank].
Qed.
Lemma handle_idents : forall c o k h r st, (k < length (n_sess st))%nat -> idents c st (fst (fst (handle c o k h r st))).
Proof.
  intros c o k h r st L j. pose proof (handle_out c o k h r st L) as H. destruct (handle c o k h r st) as [[st2 e] p]. cbn [fst].
  destruct H as (_ & K & O). destruct (Nat.eq_dec j k) as [->|J].
  - destruct K as [K|[K _]]; [apply ident_same; exact K|]. eapply ident_trans; [apply (ident_blank c)|apply ident_same; exact K].
  - destruct (O j J) as [X|[X _]]; rewrite X; [apply ident_refl|apply ident_blank].
Qed.
Lemma send_idents : forall c o k st st' e, (k < length (n_sess st))%nat -> send_with_timeout c o k st = Ok (st', e) -> idents c st st'.
Proof.
  intros c o k st st' e L E. unfold send_with_timeout in E. destruct (s_socket (sess_at c st k) <? 0); [injection E as <- <-; apply idents_refl|].
  destruct (0 <? s_counter (sess_at c st k)).
  - cbn zeta in E. destruct (send_once o k _) as [[ok e0]| |]; try discriminate. cbn [obind] in E. injection E as <- <-.
    apply idents_set; [exact L|]. intros U. cbn in *. auto.
  - cbn zeta in E. destruct (s_ar (sess_at c st k)) as [i|]; [|discriminate].
    set (st1 := set_sess st k (with_resend (sess_at c st k) false (s_counter (sess_at c st k)))) in *.
    assert (I1 : idents c st st1) by (apply idents_set; [exact L|]; intros U; cbn in *; auto).
    pose proof (abort_idents c i st1) as I2. pose proof (abort_sessions c i st1) as (LA & _ & _). destruct (abort c i st1) as [st2 e2]. cbn [fst] in *.
    assert (I3 : idents c st st2) by (eapply idents_trans; eassumption).
    destruct (_ && _); injection E as <- <-; [|exact I3]. eapply idents_trans; [exact I3|]. apply idents_set.
    + rewrite LA. unfold st1. rewrite length_set_sess. exact L.
    + intros U. cbn in *. auto.
Qed.
Lemma request_start_idents : forall c o k h m be st st1 a b, (k < length (n_sess st))%nat -> request_start c o k h m be st = Ok (st1, a, b) -> idents c st st1.
Proof.
  intros c o k h m be st st1 a b L E. unfold request_start in E. destruct (put_header _ _ m 0) as [[[b0 start] lp]| |]; try discriminate. cbn [obind] in E.
  destruct (poke b0 start _) as [b1| |]; try discriminate. cbn [obind] in E. injection E as <- _ _. apply idents_set; [exact L|].
  destruct (h_opnum h =? op_release); intros U; cbn in *; auto.
Qed.
Lemma request_send_idents : forall c o k h m a b be st st' e, (k < length (n_sess st))%nat -> request_send c o k h m a b be st = Ok (st', e) -> idents c st st'.
Proof.
  intros c o k h m a b be st st' e L E. unfold request_send in E. cbn zeta in E.
  destruct (s_out_len (sess_at c st k) <? max_payload); cbn [obind] in E.
  - destruct (put_len be _ _ _ b) as [b3| |]; try discriminate. cbn [obind] in E.
    destruct (send_once o k _) as [[ok e0]| |]; try discriminate. cbn [obind] in E. injection E as <- <-. apply idents_set; [exact L|]. intros U; cbn in *; auto.
  - destruct (put_header _ _ m 0) as [[[b0 start] lp]| |]; try discriminate. cbn [obind] in E.
    destruct (put_len be _ _ _ lp) as [b3| |]; try discriminate. cbn [obind] in E.
    apply send_idents in E; [|rewrite length_set_sess; exact L]. eapply idents_trans; [|exact E]. apply idents_set; [exact L|]. intros U; cbn in *; auto.
Qed.
Lemma answer_request_idents : forall c o k h r st st' e, (k < length (n_sess st))%nat -> answer_request c o k h r st = Ok (st', e) -> idents c st st'.
Proof.
  intros c o k h r st st' e L E. unfold answer_request in E.
  destruct (request_limit c h r) as [[[m r1] be]| |]; try discriminate. cbn [obind] in E.
  destruct (request_start c o k h m be st) as [[[st1 start] lpos]| |] eqn:E1; try discriminate. cbn [obind] in E.
  pose proof (request_start_local _ _ _ _ _ _ _ _ _ _ E1) as [[L1 _] _]. apply request_start_idents in E1; [|exact L].
  pose proof (handle_idents c o k h (set_be r1 be) st1 ltac:(lia)) as H2. pose proof (handle_others c o k h (set_be r1 be) st1) as [L2 _].
  destruct (handle c o k h (set_be r1 be) st1) as [[st2 e2] prm] eqn:E2. cbn [fst snd] in *.
  destruct (request_send c o k h m start lpos be st2) as [[st3 e3]| |] eqn:E3; try discriminate. cbn [obind] in E. injection E as <- <-.
  apply request_send_idents in E3; [|lia]. eapply idents_trans; [exact E1|]. eapply idents_trans; eassumption.
Qed.
Lemma next_fragment_idents : forall c o k h r st st' e, (k < length (n_sess st))%nat -> next_fragment c o k h r st = Ok (st', e) -> idents c st st'.
Proof.
  intros c o k h r st st' e L E. unfold next_fragment in E. cbn zeta in E. destruct (_ <? s_out_len _).
  - repeat match type of E with
    | (do x <- ?a; _) = _ => let F := fresh in destruct a as [[[? ?] ?]| |] eqn:F; try discriminate; cbn [obind] in E
    | (do x <- ?a; _) = _ => let F := fresh in destruct a as [?| |] eqn:F; try discriminate; cbn [obind] in E
    end.
    apply send_idents in E; [|rewrite length_set_sess; exact L]. eapply idents_trans; [|exact E]. apply idents_set; [exact L|]. intros U; cbn in *; auto.
  - injection E as <- <-. apply idents_set; [exact L|]. intros U; cbn in *; auto.
Qed.
Lemma act_idents : forall c o k fresh h r st st' e, (k < length (n_sess st))%nat -> act c o k fresh h r st = Ok (st', e) -> idents c st st'.
Proof.
  intros c o k fresh h r st st' e L E. unfold act in E. cbn zeta in E.
  assert (I1 : idents c st (set_sess st k (with_out (sess_at c st k) (s_out (sess_at c st k)) 0 0 0 0))) by (apply idents_set; [exact L|]; intros U; cbn in *; auto).
  assert (KI : forall b, idents c st (kill_if c b k st)) by (intros; apply idents_set; [exact L|]; intros U; cbn in *; auto).
  destruct (h_ptype h =? pt_ping).
  { destruct (answer_ping o k h _); try discriminate. cbn [obind] in E. injection E as <- <-. eapply idents_trans; [exact I1|].
    apply idents_set; [rewrite length_set_sess; exact L|]. intros U; cbn in *; auto. }
  destruct (h_ptype h =? pt_request).
  { apply answer_request_idents in E; [|rewrite length_set_sess; exact L]. eapply idents_trans; eassumption. }
  destruct (h_ptype h =? pt_frag_ack); [apply next_fragment_idents in E; [exact E|exact L]|].
  destruct (h_ptype h =? pt_response).
  { unfold response in E. destruct fresh; [injection E as <- <-; apply KI|].
    destruct (get_ndr r) as [[nd r1]| |]; try discriminate. cbn [obind] in E. destruct (h_opnum h =? op_control).
    - destruct (s_ar (sess_at c st k)); [|discriminate]. injection E as <- <-. apply KI.
    - injection E as <- <-. apply idents_refl. }
  destruct (_ || _).
  { injection E as E. unfold cancel in E.
    assert (H : let p := match s_ar (sess_at c st k) with Some i => abort c i st | None => (st, []) end in idents c st (fst p) /\ length (n_sess (fst p)) = length (n_sess st)).
    { destruct (s_ar (sess_at c st k)); [split; [apply abort_idents|apply abort_sessions]|split; [apply idents_refl|reflexivity]]. }
    cbn zeta in H. destruct (match s_ar (sess_at c st k) with Some i => abort c i st | None => (st, []) end) as [st1 e1].
    injection E as <- <-. cbn [fst] in H. destruct H as [H1 H2]. eapply idents_trans; [exact H1|]. apply idents_set; [lia|]. intros U; cbn in *; auto. }
  injection E as <- <-. apply idents_refl.
Qed.

(** Which client the session of a datagram belongs to afterwards. *)
Lemma collect_id : forall c ip port h frame r s s' r', collect c ip port h frame r s = Ok (s', r') ->
  s_used s' = s_used s /\ s_from_me s' = s_from_me s /\ s_ar s' = s_ar s /\ s_socket s' = s_socket s /\
  if (h_frag h =? 0) || (h_fragnmb h =? 0) then s_uuid s' = h_activity h /\ s_ip s' = ip /\ s_port s' = port /\ s_kill s' = false
  else s_uuid s' = s_uuid s /\ s_ip s' = s_ip s /\ s_port s' = s_port s /\ s_kill s' = s_kill s.
Proof.
  intros c ip port h frame r s s' r' E. unfold collect in E. cbn zeta in E.
  destruct (h_frag h =? 0); cbn [orb].
  { injection E as <- <-. cbn. tauto. }
  assert (H : let s1 := (if h_fragnmb h =? 0 then begin_message ip port h s else if Bool.eqb (s_be s) (h_be h) then s else with_err s true) in
    s_used s1 = s_used s /\ s_from_me s1 = s_from_me s /\ s_ar s1 = s_ar s /\ s_socket s1 = s_socket s /\
    if h_fragnmb h =? 0 then s_uuid s1 = h_activity h /\ s_ip s1 = ip /\ s_port s1 = port /\ s_kill s1 = false
    else s_uuid s1 = s_uuid s /\ s_ip s1 = s_ip s /\ s_port s1 = s_port s /\ s_kill s1 = s_kill s).
  { cbn zeta. destruct (h_fragnmb h =? 0); [cbn; tauto|]. destruct (Bool.eqb _ _); cbn; tauto. }
  cbn zeta in H. revert E H. generalize (if h_fragnmb h =? 0 then begin_message ip port h s else if Bool.eqb (s_be s) (h_be h) then s else with_err s true).
  intros s1 E H. destruct (negb _); [injection E as <- <-; exact H|]. destruct (_ <? _); [injection E as <- <-; exact H|].
  destruct (slice frame _ _) as [d| |]; try discriminate. cbn [obind] in E.
  destruct (poke (s_in s1) _ d) as [b| |]; try discriminate. cbn [obind] in E. injection E as <- <-. exact H.
Qed.

Lemma session_step_ident : forall c o ip port frame h r k fresh st st' e, (k < length (n_sess st))%nat ->
  session_step c o ip port frame h r k fresh st = Ok (st', e) ->
  (s_used (sess_at c st' k) = true -> s_used (sess_at c st k) = true /\ s_from_me (sess_at c st' k) = s_from_me (sess_at c st k) /\
     (s_uuid (sess_at c st' k) = s_uuid (sess_at c st k) \/ s_uuid (sess_at c st' k) = h_activity h)) /\
  (forall j, j <> k -> ident (sess_at c st j) (sess_at c st' j)).
Proof.
  intros c o ip port frame h r k fresh st st' e L E. pose proof (session_step_others _ _ _ _ _ _ _ _ _ _ _ _ L E) as [_ O]. split.
  2:{ intros j J. destruct (O j J) as [X|[X _]]; rewrite X; [apply ident_refl|apply ident_blank]. }
  apply session_step_inv in E. destruct E as (s1 & r1 & st3 & e3 & E1 & E2 & E3). cbn zeta in E1, E2.
  set (s2 := with_resend s1 false (s_counter s1)) in *. set (st2 := set_sess st k s2) in *.
  assert (L2 : (k < length (n_sess st2))%nat) by (unfold st2; rewrite length_set_sess; exact L).
  assert (K2 : sess_at c st2 k = s2) by (apply sess_at_set_same; exact L).
  assert (A1 : s_used s2 = s_used (sess_at c st k) /\ s_from_me s2 = s_from_me (sess_at c st k) /\ (s_uuid s2 = s_uuid (sess_at c st k) \/ s_uuid s2 = h_activity h)).
  { destruct (max_body <? h_bodylen h); [destruct E1 as [-> _]; cbn; auto|].
    apply collect_id in E1. destruct E1 as (U & F & _ & _ & I1). split; [exact U|]. split; [exact F|].
    destruct (_ || _); [right|left]; apply I1. }
  assert (A2 : idents c st2 st3).
  { destruct (max_body <? h_bodylen h); [destruct E2 as [_ ->]; apply idents_set; [exact L2|]; rewrite K2; intros U; cbn in *; auto|].
    destruct (_ || _); [eapply act_idents; eassumption|]. destruct (h_nofack h =? 0); destruct E2 as [_ ->]; apply idents_refl. }
  assert (A3 : idents c st2 st').
  { destruct (s_kill (sess_at c st3 k)); destruct E3 as [-> _]; [|exact A2]. eapply idents_trans; [exact A2|apply release_idents]. }
  intros U. specialize (A3 k U). rewrite K2 in A3. destruct A3 as (B1 & B2 & B3), A1 as (A4 & A5 & A6).
  split; [congruence|]. split; [congruence|]. destruct A6 as [A6|A6]; [left|right]; congruence.
Qed.

Lemma ccontrol_shape : forall c o i sock obj st st' e, ccontrol c o i sock obj st = Ok (st', e) ->
  (st' = st /\ e = []) \/
  exists k s1, first_free (n_sess st) 0 = Some k /\ s_used s1 = true /\ s_uuid s1 = o_uuid o /\ s_from_me s1 = true /\ s_ar s1 = Some i /\ s_counter s1 = 3 /\
    send_with_timeout c o k (set_sess st k s1) = Ok (st', e).
Proof.
  intros c o i sock obj st st' e E. unfold ccontrol in E. destruct (ar_at st i) as [j|]; [|injection E as <- <-; auto].
  unfold allocate in E. destruct (first_free (n_sess st) 0) as [k|] eqn:F; [|injection E as <- <-; auto]. right.
  destruct (first_free_spec _ _ _ F) as [A _].
  cbn zeta in E. destruct (put_header _ _ (c_buf c) 0) as [[[b0 start] lp0]| |]; try discriminate. cbn [obind] in E.
  destruct (poke b0 start _) as [b1| |]; try discriminate. cbn [obind] in E.
  match type of E with (do x <- ?a; _) = _ => destruct a as [[[b2 send] lp]| |]; try discriminate end. cbn [obind] in E.
  destruct (put_len true _ _ _ lp) as [b3| |]; try discriminate. cbn [obind] in E. rewrite set_sess_twice in E.
  eexists k, _. split; [reflexivity|]. split; [|split; [|split; [|split; [|split; [|exact E]]]]]; rewrite ?sess_at_set_same by lia; reflexivity.
Qed.

(** * C94 *)

(** The datagram is from client [u]. *)
Definition from_client (frame : list Z) (len : Z) (old : list Z) (u : uuid) : Prop :=
  exists h r, get_dce_rpc_header old old old (mkRd (Some frame) len false POk 0) = Ok (h, r) /\ h_activity h = u.

(** Session [j] is concerned by an input: it belongs to the client that sent the
    datagram; or it is free and the client does not have a session; or the timer is
    its own; or it is free and the device needs a session itself. *)
Definition concerned (c : cfg) (st : net) (x : input) (j : nat) : Prop :=
  match x with
  | IDatagram ip port frame len old =>
    exists u, from_client frame len old u /\
      if s_used (sess_at c st j) then s_uuid (sess_at c st j) = u
      else forall j', s_used (sess_at c st j') = true -> s_uuid (sess_at c st j') <> u
  | IResend k | IEpm k => k = j
  | IAbort _ => False
  | IReady _ _ _ => s_used (sess_at c st j) = false
  end.

Lemma used_in : forall c st j, s_used (sess_at c st j) = true -> In (sess_at c st j) (n_sess st).
Proof.
  intros c st j U. unfold sess_at in *. destruct (Nat.lt_ge_cases j (length (n_sess st))) as [L|L]; [apply nth_In; exact L|].
  rewrite nth_overflow in U by exact L. discriminate.
Qed.

Theorem C94_isolation : forall c l st x st' e, cfg_ok c -> reached c l st -> input_ok x -> step c x st = Ok (st', e) ->
  forall j, sess_at c st' j = sess_at c st j \/ concerned c st (fst x) j \/
    (sess_at c st' j = blank c /\ exists i, In (Ended i) e /\ belongs c st j i).
Proof.
  intros c l st [x o] st' e C R V E j. pose proof (reached_ok c l st C R) as N. destruct V as [V1 V]. cbn [fst snd] in *.
  destruct x as [ip port frame len old|k|k|i|i sock obj]; cbn [step concerned] in *.
  - unfold datagram in E. destruct (Z.leb_spec len 0) as [L0|L0]; [injection E as <- <-; auto|].
    destruct (get_dce_rpc_header old old old (mkRd (Some frame) len false POk 0)) as [[h r]| |] eqn:G; try discriminate. cbn [obind] in E.
    pose proof (packet_others _ _ _ _ _ _ _ _ _ _ C N E) as H.
    destruct (session_for c o ip port h st) as [[[k fresh] st1]|] eqn:S1; [|destruct H as [-> ->]; auto].
    destruct (session_for_ok _ _ _ _ _ _ _ _ _ C N S1) as (_ & _ & _ & _ & X & Y).
    destruct (Nat.eq_dec j k) as [->|J].
    + right. left. exists (h_activity h). split; [exists h, r; auto|]. destruct fresh.
      * destruct (Y eq_refl) as (Y1 & Y2 & _). rewrite Y1. intros j' U. specialize (Y2 _ (used_in c st j' U) U).
        intros Q. rewrite Q in Y2. pose proof (proj2 (uuid_eqb_eq (h_activity h) (h_activity h)) eq_refl). congruence.
      * destruct (X eq_refl) as (_ & X1 & X2). rewrite X1. symmetry. apply uuid_eqb_eq. exact X2.
    + destruct (proj2 H j J) as [Q|(Q & _ & Q2)]; auto.
  - destruct (s_resend (sess_at c st k)); [|injection E as <- <-; auto]. destruct (Nat.eq_dec k j) as [->|J]; [auto|].
    unfold send_with_timeout in E. destruct (s_socket (sess_at c st k) <? 0); [injection E as <- <-; auto|].
    destruct (0 <? s_counter (sess_at c st k)).
    + cbn zeta in E. destruct (send_once o k _) as [[ok e0]| |]; try discriminate. cbn [obind] in E. injection E as <- <-.
      left. apply sess_at_set_other. auto.
    + cbn zeta in E. destruct (s_ar (sess_at c st k)) as [i|]; [|discriminate].
      set (st1 := set_sess st k (with_resend (sess_at c st k) false (s_counter (sess_at c st k)))) in *.
      pose proof (abort_others c k i st1) as H. destruct (abort c i st1) as [st2 e2]. cbn [fst snd] in H.
      assert (H2 : others c k st st' e).
      { eapply others_pre; [apply (local_set c k st (with_resend (sess_at c st k) false (s_counter (sess_at c st k))))|reflexivity|]. fold st1.
        destruct (_ && _); injection E as <- <-; [|exact H]. eapply others_post; [exact H|apply local_set|]. intros y I. apply in_or_app. auto. }
      destruct (proj2 H2 j ltac:(auto)) as [Q|(Q & _ & Q2)]; auto.
  - destruct (s_epmtimer (sess_at c st k)); [|injection E as <- <-; auto]. destruct (Nat.eq_dec k j) as [->|J]; [auto|].
    left. pose proof (release_local c k st) as [_ H]. destruct (release c k st) as [st1 e1]. injection E as <- <-. apply H. auto.
  - pose proof (abort_sessions c i st) as (_ & _ & H). destruct (abort c i st) as [st1 e1]. injection E as <- <-. cbn [fst snd] in H.
    destruct (H j) as [Q|(Q & Q1 & _ & Q2)]; [auto|]. right. right. split; [exact Q|]. exists i. split; [exact Q1|].
    unfold belongs. destruct Q2 as [[Q2 _]|Q2]; auto.
  - apply ccontrol_shape in E. destruct E as [[-> _]|(k & s1 & F & A1 & A2 & A3 & A4 & A5 & E)]; [auto|].
    destruct (first_free_spec _ _ _ F) as [A B]. specialize (B (blank c)). rewrite Nat.sub_0_r in B.
    destruct (Nat.eq_dec j k) as [->|J]; [right; left; exact B|]. left.
    apply send_local in E; [|rewrite sess_at_set_same by lia; lia]. destruct E as [[_ E] _]. rewrite (E j J). apply sess_at_set_other. exact J.
Qed.
Print Assumptions C94_isolation.

(** Two clients: as long as no connection ends, a datagram leaves the sessions of all
    other clients as they are. *)
Corollary C94_other_clients : forall c l st ip port frame len old o st' e j u, cfg_ok c -> reached c l st ->
  input_ok (IDatagram ip port frame len old, o) -> step c (IDatagram ip port frame len old, o) st = Ok (st', e) ->
  s_used (sess_at c st j) = true -> s_uuid (sess_at c st j) = u -> ~ from_client frame len old u -> (forall i, ~ In (Ended i) e) ->
  sess_at c st' j = sess_at c st j.
Proof.
  intros c l st ip port frame len old o st' e j u C R V E U Q NF NE.
  destruct (C94_isolation c l st _ st' e C R V E j) as [A|[A|[_ [i [A _]]]]]; [exact A| |destruct (NE i A)].
  exfalso. cbn [fst concerned] in A. destruct A as (v & F & A). rewrite U in A. apply NF. congruence.
Qed.

(** Two sessions in use never have the same UUID, if generated UUIDs are new. *)
Definition unique (c : cfg) (st : net) : Prop :=
  forall i j, s_used (sess_at c st i) = true -> s_used (sess_at c st j) = true -> s_uuid (sess_at c st i) = s_uuid (sess_at c st j) -> i = j.
Fixpoint new_uuids (c : cfg) (l : list (input * hres)) (st : net) : Prop :=
  match l with
  | [] => True
  | x :: t => (forall j, s_used (sess_at c st j) = true -> s_uuid (sess_at c st j) <> o_uuid (snd x)) /\
              match step c x st with Ok (st1, _) => new_uuids c t st1 | _ => True end
  end.

Lemma unique_idents : forall c st st', idents c st st' -> unique c st -> unique c st'.
Proof.
  intros c st st' H U i j Ui Uj E. destruct (H i Ui) as (A1 & A2 & _), (H j Uj) as (B1 & B2 & _). apply U; congruence.
Qed.
Lemma unique_one : forall c st st' k, (forall j, j <> k -> ident (sess_at c st j) (sess_at c st' j)) ->
  (s_used (sess_at c st' k) = true -> forall j, j <> k -> s_used (sess_at c st j) = true -> s_uuid (sess_at c st j) <> s_uuid (sess_at c st' k)) ->
  unique c st -> unique c st'.
Proof.
  intros c st st' k O K U i j Ui Uj E. destruct (Nat.eq_dec i k) as [->|Ni], (Nat.eq_dec j k) as [->|Nj]; [reflexivity| | |].
  - exfalso. destruct (O j Nj Uj) as (B1 & B2 & _). apply (K Ui j Nj B1). congruence.
  - exfalso. destruct (O i Ni Ui) as (B1 & B2 & _). apply (K Uj i Ni B1). congruence.
  - destruct (O i Ni Ui) as (A1 & A2 & _), (O j Nj Uj) as (B1 & B2 & _). apply U; congruence.
Qed.

Lemma step_unique : forall c x st st' e, cfg_ok c -> net_ok c st -> input_ok x -> step c x st = Ok (st', e) ->
  (forall j, s_used (sess_at c st j) = true -> s_uuid (sess_at c st j) <> o_uuid (snd x)) -> unique c st -> unique c st'.
Proof.
  intros c [x o] st st' e C N [V1 V] E F U. cbn [fst snd] in *. destruct x as [ip port frame len old|k|k|i|i sock obj]; cbn [step] in E.
  - unfold datagram in E. destruct (Z.leb_spec len 0) as [L0|L0]; [injection E as <- <-; exact U|].
    destruct (get_dce_rpc_header old old old (mkRd (Some frame) len false POk 0)) as [[h r]| |] eqn:G; try discriminate. cbn [obind] in E.
    rewrite packet_steps in E. destruct (session_for c o ip port h st) as [[[k fresh] st1]|] eqn:S1; [|injection E as <- <-; exact U].
    destruct (session_for_ok _ _ _ _ _ _ _ _ _ C N S1) as (N1 & L1 & _ & O1 & X & Y).
    apply session_step_ident in E; [|exact L1]. destruct E as [K O].
    apply (unique_one c st st' k); [|intros Uk j J Uj|exact U].
    + intros j J. rewrite <- (O1 j J). apply O. exact J.
    + destruct (K Uk) as (K1 & _ & K2). destruct fresh.
      * destruct (Y eq_refl) as (Y1 & Y2 & Y3). rewrite Y3 in K2. cbn in K2. destruct K2 as [K2|K2]; rewrite K2; [apply F; exact Uj|].
        specialize (Y2 _ (used_in c st j Uj) Uj). intros Q. rewrite Q in Y2.
        pose proof (proj2 (uuid_eqb_eq (h_activity h) (h_activity h)) eq_refl). congruence.
      * destruct (X eq_refl) as (-> & X1 & X2). apply uuid_eqb_eq in X2. intros Q. apply J. apply U; [exact Uj|exact X1|]. destruct K2; congruence.
  - destruct (s_resend (sess_at c st k)) eqn:ER; [|injection E as <- <-; exact U]. eapply unique_idents; [|exact U].
    eapply send_idents; [|exact E]. destruct (Nat.lt_ge_cases k (length (n_sess st))) as [L|L]; [exact L|].
    unfold sess_at in ER. rewrite nth_overflow in ER by exact L. discriminate.
  - destruct (s_epmtimer (sess_at c st k)); [|injection E as <- <-; exact U]. eapply unique_idents; [|exact U].
    pose proof (release_idents c k st) as H. destruct (release c k st). injection E as <- <-. exact H.
  - eapply unique_idents; [|exact U]. pose proof (abort_idents c i st) as H. destruct (abort c i st). injection E as <- <-. exact H.
  - apply ccontrol_shape in E. destruct E as [[-> _]|(k & s1 & Fk & A1 & A2 & A3 & A4 & A5 & E)]; [exact U|].
    destruct (first_free_spec _ _ _ Fk) as [A B]. specialize (B (blank c)). rewrite Nat.sub_0_r in B.
    apply send_idents in E; [|rewrite length_set_sess; lia]. eapply unique_idents; [exact E|].
    apply (unique_one c st _ k); [| |exact U].
    + intros j J. rewrite sess_at_set_other by exact J. apply ident_refl.
    + intros _ j J Uj. rewrite sess_at_set_same by lia. rewrite A2. apply F. exact Uj.
Qed.

Theorem C94_unique : forall c l st e, cfg_ok c -> Forall input_ok l -> run c l (rpc_init c) = Ok (st, e) ->
  new_uuids c l (rpc_init c) -> unique c st.
Proof.
  intros c l st e C V R F.
  assert (G : forall l s0 e0, net_ok c s0 -> unique c s0 -> Forall input_ok l -> new_uuids c l s0 -> run c l s0 = Ok (st, e0) -> unique c st).
  { clear l e V R F. intros l. induction l as [|x l IH]; intros s0 e0 N U V F R; cbn [run new_uuids] in *.
    - injection R as <- <-. exact U.
    - destruct (step c x s0) as [[s1 e1]| |] eqn:E; try discriminate. cbn [obind] in R.
      destruct (run c l s1) as [[s2 e2]| |] eqn:E2; try discriminate. cbn [obind] in R. injection R as <- <-.
      destruct F as [F1 F2]. inversion V; subst. apply (IH s1 e2); [eapply step_net_ok; eauto|eapply step_unique; eauto|assumption|exact F2|exact E2]. }
  apply (G l (rpc_init c) e); try assumption; [apply init_ok; exact C|].
  intros i j Ui. exfalso. unfold sess_at, rpc_init in Ui. cbn [n_sess] in Ui. rewrite nth_repeat in Ui. discriminate.
Qed.
Print Assumptions C94_unique.

Fixpoint check_new (c : cfg) (l : list (input * hres)) (st : net) : bool :=
  match l with
  | [] => true
  | x :: t => forallb (fun s => negb (s_used s) || negb (uuid_eqb (s_uuid s) (o_uuid (snd x)))) (n_sess st) &&
              match step c x st with Ok (st1, _) => check_new c t st1 | _ => true end
  end.
Lemma check_new_ok : forall c l st, check_new c l st = true -> new_uuids c l st.
Proof.
  intros c l. induction l as [|x l IH]; intros st H; cbn [check_new new_uuids] in *; [exact I|]. apply andb_prop in H. destruct H as [H1 H2]. split.
  - intros j U Q. rewrite forallb_forall in H1. specialize (H1 _ (used_in c st j U)). rewrite U, Q in H1. cbn in H1.
    rewrite (proj2 (uuid_eqb_eq _ _) eq_refl) in H1. discriminate.
  - destruct (step c x st) as [[st1 e1]| |]; auto.
Qed.

Example C94_example : exists st, reached small story st /\
  unique small st /\ s_used (sess_at small st 0) = true /\ s_used (sess_at small st 1) = true /\
  s_uuid (sess_at small st 0) = client 1 /\ s_uuid (sess_at small st 1) = client 2.
Proof.
  destruct (checked_ok story (fun st _ => check_new small story (rpc_init small) && s_used (sess_at small st 0) && s_used (sess_at small st 1) &&
    uuid_eqb (s_uuid (sess_at small st 0)) (client 1) && uuid_eqb (s_uuid (sess_at small st 1)) (client 2))) as (st & e & RC & R & K);
    [vm_compute; reflexivity|intros x [<-|[<-|[<-|[]]]]; reflexivity|].
  apply andb_prop in K. destruct K as [K K5]. apply andb_prop in K. destruct K as [K K4]. apply andb_prop in K. destruct K as [K K3]. apply andb_prop in K. destruct K as [K1 K2].
  exists st. split; [exact RC|]. split; [apply (C94_unique small story st e); [unfold cfg_ok; cbn; lia|exact (proj1 RC)|exact R|apply check_new_ok; exact K1]|].
  split; [exact K2|]. split; [exact K3|]. split; apply uuid_eqb_eq; assumption.
Qed.
