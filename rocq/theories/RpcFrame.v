(** What a step changes: sessions other than the one concerned. *)
From Coq Require Import List ZArith Arith Bool Lia.
From Verif Require Import Base CpmModel CpmProps PpmModel PpmProps BlockModel BlockReadLemmas BlockReadProps BlockWriteProps RpcModel RpcLemmas RpcInv RpcStep RpcProps.
Import ListNotations.
Local Open Scope Z_scope.

Definition local (c : cfg) (k : nat) (st st' : net) : Prop :=
  length (n_sess st') = length (n_sess st) /\ forall j, j <> k -> sess_at c st' j = sess_at c st j.

(** Session [j] belongs to connection [i], or was opened by the device for it. *)
Definition belongs (c : cfg) (st : net) (j i : nat) : Prop :=
  ar_at st i = Some j \/ (s_from_me (sess_at c st j) = true /\ s_ar (sess_at c st j) = Some i).

Definition others (c : cfg) (k : nat) (st st' : net) (e : list ev) : Prop :=
  length (n_sess st') = length (n_sess st) /\
  forall j, j <> k -> sess_at c st' j = sess_at c st j \/
    (sess_at c st' j = blank c /\ s_used (sess_at c st j) = true /\ exists i, In (Ended i) e /\ belongs c st j i).

Lemma local_refl : forall c k st, local c k st st.
Proof. intros. split; auto. Qed.
Lemma local_set : forall c k st s, local c k st (set_sess st k s).
Proof. intros. split; [apply length_set_sess|]. intros. apply sess_at_set_other. assumption. Qed.
Lemma local_set_ar : forall c k st i v, local c k st (set_ar st i v).
Proof. intros. split; auto. Qed.
Lemma local_trans : forall c k a b d, local c k a b -> local c k b d -> local c k a d.
Proof. intros c k a b d [A1 A2] [B1 B2]. split; [congruence|]. intros j J. rewrite B2, A2 by exact J. reflexivity. Qed.
Lemma local_others : forall c k a b e, local c k a b -> others c k a b e.
Proof. intros c k a b e [A B]. split; auto. Qed.
Lemma others_pre : forall c k a b d e, local c k a b -> n_ar b = n_ar a -> others c k b d e -> others c k a d e.
Proof.
  intros c k a b d e [A1 A2] AR [B1 B2]. split; [congruence|]. intros j J. destruct (B2 j J) as [X|(X & U & i & I & Y)].
  - left. rewrite X. auto.
  - right. split; [exact X|]. rewrite (A2 j J) in *. split; [exact U|]. exists i. split; [exact I|].
    unfold belongs, ar_at in *. rewrite AR, (A2 j J) in Y. exact Y.
Qed.
Lemma others_post : forall c k a b d e e', others c k a b e -> local c k b d -> incl e e' -> others c k a d e'.
Proof.
  intros c k a b d e e' [A1 A2] [B1 B2] I. split; [congruence|]. intros j J. rewrite (B2 j J).
  destruct (A2 j J) as [X|(X & U & i & Y & Z0)]; [left; exact X|right]. split; [exact X|]. split; [exact U|]. exists i. auto.
Qed.
Lemma others_incl : forall c k a b e e', others c k a b e -> incl e e' -> others c k a b e'.
Proof. intros c k a b e e' H I. eapply others_post; [exact H|apply local_refl|exact I]. Qed.

Lemma abort_others : forall c k i st, others c k st (fst (abort c i st)) (snd (abort c i st)).
Proof.
  intros c k i st. destruct (abort_sessions c i st) as (L & _ & S1). split; [exact L|]. intros j J.
  destruct (S1 j) as [X|(X & E & U & B)]; [auto|right]. split; [exact X|]. split; [exact U|]. exists i. split; [exact E|].
  unfold belongs. destruct B as [[B _]|B]; auto.
Qed.

Lemma release_local : forall c k st, local c k st (fst (release c k st)).
Proof.
  intros c k st. destruct (release_sessions c k st) as (L & _ & S1). split; [exact L|]. intros j J.
  destruct (S1 j) as [X|[X _]]; [exact X|contradiction].
Qed.

Lemma do_connect_others : forall c o k err st, others c k st (fst (do_connect c o k err st)) (snd (do_connect c o k err st)).
Proof.
  intros c o k err st. unfold do_connect. assert (F : forall e, others c k st (connect_fails c k st) e) by (intros; apply local_others, local_set).
  destruct err; [apply F|]. destruct (o_effect o) as [| |[]|i|i]; try apply F.
  - destruct (free_ar (n_ar st) 0) as [i|]; [|apply F]. cbn [fst snd]. apply local_others. eapply local_trans; [apply local_set|apply local_set_ar].
  - destruct (ar_at st i) as [j|]; [|apply F]. eapply others_pre; [apply local_set| |apply abort_others]. reflexivity.
Qed.

Lemma do_release_others : forall c o k err st, others c k st (fst (do_release c o k err st)) (snd (do_release c o k err st)).
Proof.
  intros c o k err st. unfold do_release.
  assert (H : let p := (if err then (st, []) else match o_effect o with ERelease i => abort c i st | _ => (st, []) end) in
    others c k st (fst p) (snd p)).
  { destruct err; [apply local_others, local_refl|]. destruct (o_effect o); try (apply local_others, local_refl). apply abort_others. }
  cbn zeta in H. destruct (if err then (st, []) else match o_effect o with ERelease i => abort c i st | _ => (st, []) end) as [st1 e].
  cbn [fst snd] in *. eapply others_post; [exact H|apply local_set|apply incl_refl].
Qed.

Lemma rpc_request_others : forall c o k h r st, others c k st (fst (fst (rpc_request c o k h r st))) (snd (fst (rpc_request c o k h r st))).
Proof.
  intros c o k h r st. unfold rpc_request.
  assert (K : forall b e, others c k st (kill_if c b k st) e) by (intros; apply local_others, local_set).
  destruct (h_opnum h =? op_connect).
  { pose proof (do_connect_others c o k (s_err (sess_at c st k)) st) as H. destruct (do_connect c o k _ st). eapply others_incl; [exact H|apply incl_tl, incl_refl]. }
  destruct (h_opnum h =? op_release).
  { pose proof (do_release_others c o k (s_err (sess_at c st k)) st) as H. destruct (do_release c o k _ st). eapply others_incl; [exact H|apply incl_tl, incl_refl]. }
  destruct (h_opnum h =? op_read); [apply K|]. destruct (h_opnum h =? op_write); [apply K|].
  destruct (h_opnum h =? op_control).
  { destruct (o_parsed o); [|apply local_others, local_refl]. destruct (s_dseq (sess_at c st k) =? h_seq h); [apply local_others, local_refl|].
    cbn [fst snd]. eapply others_post; [apply (K (is_ekill (o_effect o)) [])|apply local_set|]. intros x []. }
  destruct (h_opnum h =? op_read_implicit); [apply K|apply local_others, local_refl].
Qed.

Lemma handle_others : forall c o k h r st, others c k st (fst (fst (handle c o k h r st))) (snd (fst (handle c o k h r st))).
Proof.
  intros c o k h r st. unfold handle. destruct (uuid_eqb (h_interface h) uuid_io_device); [apply rpc_request_others|].
  destruct (uuid_eqb (h_interface h) uuid_epmap); [apply local_others, local_set|apply local_others, local_refl].
Qed.

Lemma send_local : forall c o k st st' e, send_with_timeout c o k st = Ok (st', e) -> 0 < s_counter (sess_at c st k) ->
  local c k st st' /\ n_ar st' = n_ar st.
Proof.
  intros c o k st st' e E P. unfold send_with_timeout in E. destruct (s_socket (sess_at c st k) <? 0).
  { injection E as <- <-. split; [apply local_refl|reflexivity]. }
  destruct (Z.ltb_spec 0 (s_counter (sess_at c st k))); [|lia]. cbn zeta in E.
  destruct (send_once o k _) as [[ok e0]| |]; try discriminate. cbn [obind] in E. injection E as <- <-. split; [apply local_set|reflexivity].
Qed.

Lemma request_start_local : forall c o k h m be st st1 a b, request_start c o k h m be st = Ok (st1, a, b) -> local c k st st1 /\ n_ar st1 = n_ar st.
Proof.
  intros c o k h m be st st1 a b E. unfold request_start in E. destruct (put_header _ _ m 0) as [[[b0 start] lp]| |]; try discriminate. cbn [obind] in E.
  destruct (poke b0 start _) as [b1| |]; try discriminate. cbn [obind] in E. injection E as <- _ _. split; [apply local_set|reflexivity].
Qed.

Lemma request_send_local : forall c o k h m a b be st st' e, (k < length (n_sess st))%nat -> request_send c o k h m a b be st = Ok (st', e) ->
  local c k st st' /\ n_ar st' = n_ar st.
Proof.
  intros c o k h m a b be st st' e L E. unfold request_send in E. cbn zeta in E.
  destruct (s_out_len (sess_at c st k) <? max_payload); cbn [obind] in E.
  - destruct (put_len be _ _ _ b) as [b3| |]; try discriminate. cbn [obind] in E.
    destruct (send_once o k _) as [[ok e0]| |]; try discriminate. cbn [obind] in E. injection E as <- <-. split; [apply local_set|reflexivity].
  - destruct (put_header _ _ m 0) as [[[b0 start] lp]| |]; try discriminate. cbn [obind] in E.
    destruct (put_len be _ _ _ lp) as [b3| |]; try discriminate. cbn [obind] in E.
    apply send_local in E; [|rewrite sess_at_set_same by exact L; reflexivity]. destruct E as [E1 E2].
    split; [eapply local_trans; [apply local_set|exact E1]|exact E2].
Qed.

Lemma answer_request_others : forall c o k h r st st' e, (k < length (n_sess st))%nat -> answer_request c o k h r st = Ok (st', e) -> others c k st st' e.
Proof.
  intros c o k h r st st' e L E. unfold answer_request in E.
  destruct (request_limit c h r) as [[[m r1] be]| |]; try discriminate. cbn [obind] in E.
  destruct (request_start c o k h m be st) as [[[st1 start] lpos]| |] eqn:E1; try discriminate. cbn [obind] in E.
  apply request_start_local in E1. destruct E1 as [L1 A1].
  pose proof (handle_others c o k h (set_be r1 be) st1) as H2.
  destruct (handle c o k h (set_be r1 be) st1) as [[st2 e2] prm] eqn:E2. cbn [fst snd] in H2.
  destruct (request_send c o k h m start lpos be st2) as [[st3 e3]| |] eqn:E3; try discriminate. cbn [obind] in E. injection E as <- <-.
  apply request_send_local in E3; [|rewrite (proj1 H2), (proj1 L1); exact L].
  eapply others_pre; [exact L1|exact A1|]. eapply others_post; [exact H2|apply E3|]. intros x I. apply in_or_app. auto.
Qed.

Lemma next_fragment_local : forall c o k h r st st' e, (k < length (n_sess st))%nat -> next_fragment c o k h r st = Ok (st', e) ->
  local c k st st' /\ n_ar st' = n_ar st.
Proof.
  intros c o k h r st st' e L E. unfold next_fragment in E. cbn zeta in E. destruct (_ <? s_out_len _).
  - repeat match type of E with
    | (do x <- ?a; _) = _ => let F := fresh in destruct a as [[[? ?] ?]| |] eqn:F; try discriminate; cbn [obind] in E
    | (do x <- ?a; _) = _ => let F := fresh in destruct a as [?| |] eqn:F; try discriminate; cbn [obind] in E
    end.
    apply send_local in E; [|rewrite sess_at_set_same by exact L; reflexivity]. destruct E as [E1 E2].
    split; [eapply local_trans; [apply local_set|exact E1]|exact E2].
  - injection E as <- <-. split; [apply local_set|reflexivity].
Qed.

Lemma act_others : forall c o k fresh h r st st' e, (k < length (n_sess st))%nat -> act c o k fresh h r st = Ok (st', e) -> others c k st st' e.
Proof.
  intros c o k fresh h r st st' e L E. unfold act in E. cbn zeta in E.
  destruct (h_ptype h =? pt_ping).
  { destruct (answer_ping o k h _); try discriminate. cbn [obind] in E. injection E as <- <-. apply local_others. eapply local_trans; apply local_set. }
  destruct (h_ptype h =? pt_request).
  { apply answer_request_others in E; [|rewrite length_set_sess; exact L]. eapply others_pre; [apply local_set|reflexivity|exact E]. }
  destruct (h_ptype h =? pt_frag_ack).
  { apply next_fragment_local in E; [|exact L]. apply local_others, E. }
  destruct (h_ptype h =? pt_response).
  { unfold response in E. destruct fresh; [injection E as <- <-; apply local_others, local_set|].
    destruct (get_ndr r) as [[nd r1]| |]; try discriminate. cbn [obind] in E. destruct (h_opnum h =? op_control).
    - destruct (s_ar (sess_at c st k)); [|discriminate]. injection E as <- <-. apply local_others, local_set.
    - injection E as <- <-. apply local_others, local_refl. }
  destruct (_ || _).
  { injection E as E. unfold cancel in E.
    assert (H : let p := match s_ar (sess_at c st k) with Some i => abort c i st | None => (st, []) end in others c k st (fst p) (snd p)).
    { destruct (s_ar (sess_at c st k)); [apply abort_others|apply local_others, local_refl]. }
    cbn zeta in H. destruct (match s_ar (sess_at c st k) with Some i => abort c i st | None => (st, []) end) as [st1 e1].
    injection E as <- <-. eapply others_post; [exact H|apply local_set|apply incl_refl]. }
  injection E as <- <-. apply local_others, local_refl.
Qed.

(** The parts of the handling of a datagram. *)
Lemma session_step_inv : forall c o ip port frame h r k fresh st st' e, session_step c o ip port frame h r k fresh st = Ok (st', e) ->
  exists s1 r1 st3 e3,
    let s := with_err (sess_at c st k) false in
    let s2 := with_resend s1 false (s_counter s1) in
    let st2 := set_sess st k s2 in
    (if max_body <? h_bodylen h then s1 = s /\ r1 = r else collect c ip port h frame r s = Ok (s1, r1)) /\
    (if max_body <? h_bodylen h then answer_reject o k h s2 = Ok e3 /\ st3 = set_sess st2 k (with_kill s2 fresh)
     else if (h_frag h =? 0) || negb (h_last h =? 0) then act c o k fresh h r1 st2 = Ok (st3, e3)
     else if h_nofack h =? 0 then answer_ack o k h s2 = Ok e3 /\ st3 = st2
     else e3 = [] /\ st3 = st2) /\
    (if s_kill (sess_at c st3 k) then st' = fst (release c k st3) /\ e = e3 ++ snd (release c k st3) else st' = st3 /\ e = e3).
Proof.
  intros c o ip port frame h r k fresh st st' e E. unfold session_step in E. cbn zeta in E.
  destruct (if max_body <? h_bodylen h then Ok (with_err (sess_at c st k) false, r) else collect c ip port h frame r (with_err (sess_at c st k) false)) as [[s1 r1]| |] eqn:E1; try discriminate.
  cbn [obind] in E.
  match type of E with (do y <- ?a; _) = _ => destruct a as [[st3 e3]| |] eqn:E2; try discriminate end. cbn [obind] in E.
  exists s1, r1, st3, e3. cbn zeta. split; [|split].
  - destruct (max_body <? h_bodylen h); [injection E1 as <- <-; auto|exact E1].
  - destruct (max_body <? h_bodylen h).
    { destruct (answer_reject o k h _) as [e0| |]; try discriminate. cbn [obind] in E2. injection E2 as <- <-. auto. }
    destruct (_ || _); [exact E2|]. destruct (h_nofack h =? 0).
    { destruct (answer_ack o k h _) as [e0| |]; try discriminate. cbn [obind] in E2. injection E2 as <- <-. auto. }
    injection E2 as <- <-. auto.
  - destruct (s_kill (sess_at c st3 k)).
    + destruct (release c k st3) as [st4 e4]. injection E as <- <-. auto.
    + injection E as <- <-. auto.
Qed.

Lemma session_step_others : forall c o ip port frame h r k fresh st st' e, (k < length (n_sess st))%nat ->
  session_step c o ip port frame h r k fresh st = Ok (st', e) -> others c k st st' e.
Proof.
  intros c o ip port frame h r k fresh st st' e L E. apply session_step_inv in E.
  destruct E as (s1 & r1 & st3 & e3 & _ & E2 & E3). cbn zeta in E2.
  set (st2 := set_sess st k (with_resend s1 false (s_counter s1))) in *.
  assert (L2 : (k < length (n_sess st2))%nat) by (unfold st2; rewrite length_set_sess; exact L).
  assert (H : others c k st st3 e3).
  { eapply others_pre; [apply (local_set c k st (with_resend s1 false (s_counter s1)))|reflexivity|]. fold st2.
    destruct (max_body <? h_bodylen h); [destruct E2 as [_ ->]; apply local_others, local_set|].
    destruct (_ || _); [apply act_others in E2; assumption|].
    destruct (h_nofack h =? 0); destruct E2 as [_ ->]; apply local_others, local_refl. }
  destruct (s_kill (sess_at c st3 k)); destruct E3 as [-> ->]; [|exact H].
  eapply others_post; [exact H|apply release_local|]. intros x I. apply in_or_app. auto.
Qed.

Lemma packet_others : forall c o ip port frame h r st st' e, cfg_ok c -> net_ok c st -> packet c o ip port frame h r st = Ok (st', e) ->
  match session_for c o ip port h st with
  | None => st' = st /\ e = []
  | Some (k, _, _) => others c k st st' e
  end.
Proof.
  intros c o ip port frame h r st st' e C N E. rewrite packet_steps in E.
  destruct (session_for c o ip port h st) as [[[k fresh] st1]|] eqn:S1; [|injection E as <- <-; auto].
  destruct (session_for_ok _ _ _ _ _ _ _ _ _ C N S1) as (N1 & L1 & A1 & O1 & _).
  apply session_step_others in E; [|exact L1]. eapply others_pre; [split; [|exact O1]|exact A1|exact E].
  rewrite (proj1 N1), (proj1 N). reflexivity.
Qed.
