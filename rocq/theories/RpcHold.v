(** C90: requests in several datagrams; what is kept of them, what is executed. *)
From Coq Require Import List ZArith Arith Bool Lia.
From Verif Require Import Base CpmModel CpmProps PpmModel PpmProps BlockModel BlockReadLemmas BlockReadProps BlockWriteProps RpcModel RpcLemmas RpcInv RpcStep RpcProps RpcFrame RpcIdent.
Import ListNotations.
Local Open Scope Z_scope.

(** A session that is in use afterwards was in use before, for the same client, and what
    was collected of its message is unchanged. *)
Definition held (s s' : sess) : Prop := s_used s' = true -> s_used s = true /\ s_uuid s' = s_uuid s /\ s_in s' = s_in s /\ s_in_len s' = s_in_len s /\ s_in_frag s' = s_in_frag s.
Definition helds (c : cfg) (st st' : net) : Prop := forall j, held (sess_at c st j) (sess_at c st' j).

Lemma held_refl : forall s, held s s.
Proof. intros s U. auto. Qed.
Lemma held_trans : forall a b d, held a b -> held b d -> held a d.
Proof. intros a b d A B U. destruct (B U) as (B1 & B2 & B3 & B4 & B5). destruct (A B1) as (A1 & A2 & A3 & A4 & A5). split; [exact A1|]. split; [congruence|]. split; [congruence|]. split; congruence. Qed.
Lemma held_blank : forall c s, held s (blank c).
Proof. intros c s U. discriminate. Qed.
Lemma helds_refl : forall c st, helds c st st.
Proof. intros c st j. apply held_refl. Qed.
Lemma helds_trans : forall c a b d, helds c a b -> helds c b d -> helds c a d.
Proof. intros c a b d A B j. eapply held_trans; [apply A|apply B]. Qed.
Lemma helds_set : forall c st k s, (k < length (n_sess st))%nat -> held (sess_at c st k) s -> helds c st (set_sess st k s).
Proof. intros c st k s L H j. rewrite sess_at_set by exact L. destruct (Nat.eqb_spec j k) as [->|]; [exact H|apply held_refl]. Qed.
Lemma held_tweak : forall s s', tweak s s' -> held s s'.
Proof. intros s s' (r & k & a & d & ->) U. cbn in *. auto 7. Qed.
Lemma held_same : forall s s', same_out s s' -> held s s'.
Proof. intros s s' H U. unfold same_out in H. decompose [and] H. split; [congruence|]. split; [assumption|]. split; [assumption|]. split; assumption. Qed.

Lemma abort_helds : forall c i st, helds c st (fst (abort c i st)).
Proof.
  intros c i st j. destruct (abort_sessions c i st) as (_ & _ & S1). destruct (S1 j) as [X|[X _]]; rewrite X; [apply held_refl|apply held_blank].
Qed.
Lemma release_helds : forall c k st, helds c st (fst (release c k st)).
Proof.
  intros c k st j. destruct (release_sessions c k st) as (_ & _ & S1). destruct (S1 j) as [X|[_ X]]; rewrite X; [apply held_refl|apply held_blank].
Qed.
Lemma handle_helds : forall c o k h r st, (k < length (n_sess st))%nat -> helds c st (fst (fst (handle c o k h r st))).
Proof.
  intros c o k h r st L j. pose proof (handle_out c o k h r st L) as H. destruct (handle c o k h r st) as [[st2 e] p]. cbn [fst].
  destruct H as (_ & K & O). destruct (Nat.eq_dec j k) as [->|J].
  - destruct K as [K|[K _]]; [apply held_same; exact K|]. eapply held_trans; [apply (held_blank c)|apply held_same; exact K].
  - destruct (O j J) as [X|[X _]]; rewrite X; [apply held_refl|apply held_blank].
Qed.
Lemma send_helds : forall c o k st st' e, (k < length (n_sess st))%nat -> send_with_timeout c o k st = Ok (st', e) -> helds c st st'.
Proof.
  intros c o k st st' e L E. unfold send_with_timeout in E. destruct (s_socket (sess_at c st k) <? 0); [injection E as <- <-; apply helds_refl|].
  destruct (0 <? s_counter (sess_at c st k)).
  - cbn zeta in E. destruct (send_once o k _) as [[ok e0]| |]; try discriminate. cbn [obind] in E. injection E as <- <-.
    apply helds_set; [exact L|]. intros U. cbn in *. auto 7.
  - cbn zeta in E. destruct (s_ar (sess_at c st k)) as [i|]; [|discriminate].
    set (st1 := set_sess st k (with_resend (sess_at c st k) false (s_counter (sess_at c st k)))) in *.
    assert (I1 : helds c st st1) by (apply helds_set; [exact L|]; intros U; cbn in *; auto 7).
    pose proof (abort_helds c i st1) as I2. pose proof (abort_sessions c i st1) as (LA & _ & _). destruct (abort c i st1) as [st2 e2]. cbn [fst] in *.
    assert (I3 : helds c st st2) by (eapply helds_trans; eassumption).
    destruct (_ && _); injection E as <- <-; [|exact I3]. eapply helds_trans; [exact I3|]. apply helds_set.
    + rewrite LA. unfold st1. rewrite length_set_sess. exact L.
    + intros U. cbn in *. auto 7.
Qed.
Lemma request_start_helds : forall c o k h m be st st1 a b, (k < length (n_sess st))%nat -> request_start c o k h m be st = Ok (st1, a, b) -> helds c st st1.
Proof.
  intros c o k h m be st st1 a b L E. unfold request_start in E. destruct (put_header _ _ m 0) as [[[b0 start] lp]| |]; try discriminate. cbn [obind] in E.
  destruct (poke b0 start _) as [b1| |]; try discriminate. cbn [obind] in E. injection E as <- _ _. apply helds_set; [exact L|].
  destruct (h_opnum h =? op_release); intros U; cbn in *; auto 7.
Qed.
Lemma request_send_helds : forall c o k h m a b be st st' e, (k < length (n_sess st))%nat -> request_send c o k h m a b be st = Ok (st', e) -> helds c st st'.
Proof.
  intros c o k h m a b be st st' e L E. unfold request_send in E. cbn zeta in E.
  destruct (s_out_len (sess_at c st k) <? max_payload); cbn [obind] in E.
  - destruct (put_len be _ _ _ b) as [b3| |]; try discriminate. cbn [obind] in E.
    destruct (send_once o k _) as [[ok e0]| |]; try discriminate. cbn [obind] in E. injection E as <- <-. apply helds_set; [exact L|]. intros U; cbn in *; auto 7.
  - destruct (put_header _ _ m 0) as [[[b0 start] lp]| |]; try discriminate. cbn [obind] in E.
    destruct (put_len be _ _ _ lp) as [b3| |]; try discriminate. cbn [obind] in E.
    apply send_helds in E; [|rewrite length_set_sess; exact L]. eapply helds_trans; [|exact E]. apply helds_set; [exact L|]. intros U; cbn in *; auto 7.
Qed.
Lemma answer_request_helds : forall c o k h r st st' e, (k < length (n_sess st))%nat -> answer_request c o k h r st = Ok (st', e) -> helds c st st'.
Proof.
  intros c o k h r st st' e L E. unfold answer_request in E.
  destruct (request_limit c h r) as [[[m r1] be]| |]; try discriminate. cbn [obind] in E.
  destruct (request_start c o k h m be st) as [[[st1 start] lpos]| |] eqn:E1; try discriminate. cbn [obind] in E.
  pose proof (request_start_local _ _ _ _ _ _ _ _ _ _ E1) as [[L1 _] _]. apply request_start_helds in E1; [|exact L].
  pose proof (handle_helds c o k h (set_be r1 be) st1 ltac:(lia)) as H2. pose proof (handle_others c o k h (set_be r1 be) st1) as [L2 _].
  destruct (handle c o k h (set_be r1 be) st1) as [[st2 e2] prm] eqn:E2. cbn [fst snd] in *.
  destruct (request_send c o k h m start lpos be st2) as [[st3 e3]| |] eqn:E3; try discriminate. cbn [obind] in E. injection E as <- <-.
  apply request_send_helds in E3; [|lia]. eapply helds_trans; [exact E1|]. eapply helds_trans; eassumption.
Qed.
Lemma next_fragment_helds : forall c o k h r st st' e, (k < length (n_sess st))%nat -> next_fragment c o k h r st = Ok (st', e) -> helds c st st'.
Proof.
  intros c o k h r st st' e L E. unfold next_fragment in E. cbn zeta in E. destruct (_ <? s_out_len _).
  - repeat match type of E with
    | (do x <- ?a; _) = _ => let F := fresh in destruct a as [[[? ?] ?]| |] eqn:F; try discriminate; cbn [obind] in E
    | (do x <- ?a; _) = _ => let F := fresh in destruct a as [?| |] eqn:F; try discriminate; cbn [obind] in E
    end.
    apply send_helds in E; [|rewrite length_set_sess; exact L]. eapply helds_trans; [|exact E]. apply helds_set; [exact L|]. intros U; cbn in *; auto 7.
  - injection E as <- <-. apply helds_set; [exact L|]. intros U; cbn in *; auto 7.
Qed.
Lemma act_helds : forall c o k fresh h r st st' e, (k < length (n_sess st))%nat -> act c o k fresh h r st = Ok (st', e) -> helds c st st'.
Proof.
  intros c o k fresh h r st st' e L E. unfold act in E. cbn zeta in E.
  assert (I1 : helds c st (set_sess st k (with_out (sess_at c st k) (s_out (sess_at c st k)) 0 0 0 0))) by (apply helds_set; [exact L|]; intros U; cbn in *; auto 7).
  assert (KI : forall b, helds c st (kill_if c b k st)) by (intros; apply helds_set; [exact L|]; intros U; cbn in *; auto 7).
  destruct (h_ptype h =? pt_ping).
  { destruct (answer_ping o k h _); try discriminate. cbn [obind] in E. injection E as <- <-. eapply helds_trans; [exact I1|].
    apply helds_set; [rewrite length_set_sess; exact L|]. intros U; cbn in *; auto 7. }
  destruct (h_ptype h =? pt_request).
  { apply answer_request_helds in E; [|rewrite length_set_sess; exact L]. eapply helds_trans; eassumption. }
  destruct (h_ptype h =? pt_frag_ack); [apply next_fragment_helds in E; [exact E|exact L]|].
  destruct (h_ptype h =? pt_response).
  { unfold response in E. destruct fresh; [injection E as <- <-; apply KI|].
    destruct (get_ndr r) as [[nd r1]| |]; try discriminate. cbn [obind] in E. destruct (h_opnum h =? op_control).
    - destruct (s_ar (sess_at c st k)); [|discriminate]. injection E as <- <-. apply KI.
    - injection E as <- <-. apply helds_refl. }
  destruct (_ || _).
  { injection E as E. unfold cancel in E.
    assert (H : let p := match s_ar (sess_at c st k) with Some i => abort c i st | None => (st, []) end in helds c st (fst p) /\ length (n_sess (fst p)) = length (n_sess st)).
    { destruct (s_ar (sess_at c st k)); [split; [apply abort_helds|apply abort_sessions]|split; [apply helds_refl|reflexivity]]. }
    cbn zeta in H. destruct (match s_ar (sess_at c st k) with Some i => abort c i st | None => (st, []) end) as [st1 e1].
    injection E as <- <-. cbn [fst] in H. destruct H as [H1 H2]. eapply helds_trans; [exact H1|]. apply helds_set; [lia|]. intros U; cbn in *; auto 7. }
  injection E as <- <-. apply helds_refl.
Qed.

