(** What the functions of the RPC layer do to the table of sessions. *)
From Coq Require Import List ZArith Arith Bool Lia.
From Verif Require Import Base CpmModel CpmProps PpmModel PpmProps BlockModel BlockReadLemmas BlockReadProps BlockWriteProps RpcModel RpcLemmas.
Import ListNotations.
Local Open Scope Z_scope.

(** * Tables *)
Lemma sess_at_set : forall c st k s j, (k < length (n_sess st))%nat ->
  sess_at c (set_sess st k s) j = if Nat.eqb j k then s else sess_at c st j.
Proof.
  intros c st k s j H. unfold sess_at, set_sess. cbn [n_sess]. rewrite nth_put_nth.
  destruct (Nat.ltb_spec k (length (n_sess st))); [|lia]. rewrite andb_true_r. reflexivity.
Qed.
Lemma sess_at_set_same : forall c st k s, (k < length (n_sess st))%nat -> sess_at c (set_sess st k s) k = s.
Proof. intros. rewrite sess_at_set by assumption. rewrite Nat.eqb_refl. reflexivity. Qed.
Lemma sess_at_set_other : forall c st k s j, j <> k -> sess_at c (set_sess st k s) j = sess_at c st j.
Proof.
  intros c st k s j N. unfold sess_at, set_sess. cbn [n_sess]. rewrite nth_put_nth.
  destruct (Nat.eqb_spec j k); [contradiction|reflexivity].
Qed.
Lemma length_set_sess : forall st k s, length (n_sess (set_sess st k s)) = length (n_sess st).
Proof. intros. apply put_nth_length. Qed.
Lemma sess_at_set_ar : forall c st i v j, sess_at c (set_ar st i v) j = sess_at c st j.
Proof. reflexivity. Qed.
Lemma set_sess_twice : forall st k s t, set_sess (set_sess st k s) k t = set_sess st k t.
Proof. intros. unfold set_sess. cbn. rewrite put_nth_twice. reflexivity. Qed.

Lemma release_sessions : forall c k st,
  length (n_sess (fst (release c k st))) = length (n_sess st) /\ n_ar (fst (release c k st)) = n_ar st /\
  forall j, sess_at c (fst (release c k st)) j = sess_at c st j \/ (j = k /\ sess_at c (fst (release c k st)) j = blank c).
Proof.
  intros c k st. unfold release. destruct (s_used (sess_at c st k)) eqn:U; cbn [fst].
  - split; [apply length_set_sess|]. split; [reflexivity|]. intros j. destruct (Nat.eq_dec j k) as [->|N].
    + destruct (Nat.lt_ge_cases k (length (n_sess st))) as [L|L].
      * right. split; [reflexivity|]. apply sess_at_set_same. exact L.
      * exfalso. unfold sess_at in U. rewrite nth_overflow in U by exact L. discriminate.
    + left. apply sess_at_set_other. exact N.
  - split; [reflexivity|]. split; [reflexivity|]. auto.
Qed.

Lemma release_by_ar_sessions : forall c i ks st,
  length (n_sess (fst (release_by_ar c i ks st))) = length (n_sess st) /\ n_ar (fst (release_by_ar c i ks st)) = n_ar st /\
  forall j, sess_at c (fst (release_by_ar c i ks st)) j = sess_at c st j \/
    (sess_at c (fst (release_by_ar c i ks st)) j = blank c /\
     In j ks /\ s_used (sess_at c st j) = true /\ s_from_me (sess_at c st j) = true /\ s_ar (sess_at c st j) = Some i).
Proof.
  intros c i ks. induction ks as [|k t IH]; intros st; cbn [release_by_ar].
  - cbn. auto.
  - destruct (s_used (sess_at c st k) && s_from_me (sess_at c st k) && match s_ar (sess_at c st k) with Some j => Nat.eqb j i | None => false end) eqn:E.
    + destruct (release c k st) as [st1 e1] eqn:R.
      pose proof (release_sessions c k st) as (L1 & A1 & S1). rewrite R in L1, A1, S1. cbn [fst] in *.
      specialize (IH st1). destruct (release_by_ar c i t st1) as [st2 e2]. cbn [fst] in *. destruct IH as (L2 & A2 & S2).
      split; [congruence|]. split; [congruence|]. intros j.
      apply andb_prop in E. destruct E as [E E3]. apply andb_prop in E. destruct E as [E1 E2].
      destruct (s_ar (sess_at c st k)) as [x|] eqn:Ex; [|discriminate]. apply Nat.eqb_eq in E3. subst x.
      destruct (S2 j) as [X|(X & I1 & U & F & R2)].
      * destruct (S1 j) as [Y|[-> Y]]; [left; congruence|right]. split; [congruence|]. split; [left; reflexivity|]. auto.
      * destruct (S1 j) as [Y|[-> Y]].
        -- rewrite Y in *. right. split; [congruence|]. split; [right; exact I1|]. auto.
        -- rewrite Y in U. discriminate.
    + specialize (IH st). destruct (release_by_ar c i t st) as [st2 e2]. cbn [fst] in *. destruct IH as (L2 & A2 & S2).
      split; [exact L2|]. split; [exact A2|]. intros j. destruct (S2 j) as [X|(X & I1 & R2)]; [auto|].
      right. split; [exact X|]. split; [right; exact I1|exact R2].
Qed.

Lemma abort_sessions : forall c i st,
  length (n_sess (fst (abort c i st))) = length (n_sess st) /\
  n_ar (fst (abort c i st)) = put_nth (n_ar st) i None /\
  forall j, sess_at c (fst (abort c i st)) j = sess_at c st j \/
    (sess_at c (fst (abort c i st)) j = blank c /\ In (Ended i) (snd (abort c i st)) /\
     s_used (sess_at c st j) = true /\
     ((ar_at st i = Some j /\ s_release (sess_at c st j) = false) \/
      (s_from_me (sess_at c st j) = true /\ s_ar (sess_at c st j) = Some i))).
Proof.
  intros c i st. unfold abort. destruct (ar_at st i) as [k|] eqn:A.
  - destruct (if s_release (sess_at c st k) then (st, []) else release c k st) as [st1 e1] eqn:R.
    assert (H1 : length (n_sess st1) = length (n_sess st) /\ n_ar st1 = n_ar st /\
      forall j, sess_at c st1 j = sess_at c st j \/ (j = k /\ s_release (sess_at c st j) = false /\ s_used (sess_at c st j) = true /\ sess_at c st1 j = blank c)).
    { destruct (s_release (sess_at c st k)) eqn:Rk.
      - injection R as <- <-. auto.
      - pose proof (release_sessions c k st) as (L1 & A1 & S1). rewrite R in L1, A1, S1. cbn [fst] in *.
        split; [exact L1|]. split; [exact A1|]. intros j. destruct (S1 j) as [X|[-> X]]; [auto|].
        destruct (s_used (sess_at c st k)) eqn:U; [right; auto|].
        unfold release in R. rewrite U in R. injection R as <- <-. auto. }
    destruct H1 as (L1 & A1 & S1).
    pose proof (release_by_ar_sessions c i (seq 0 (c_sessions c)) st1) as (L2 & A2 & S2).
    destruct (release_by_ar c i (seq 0 (c_sessions c)) st1) as [st2 e2] eqn:R2. cbn [fst snd] in *.
    split; [cbn; congruence|]. split; [cbn; congruence|]. intros j. rewrite sess_at_set_ar.
    destruct (S2 j) as [X|(X & _ & U & F & R3)].
    + destruct (S1 j) as [Y|(-> & Y1 & Y2 & Y3)]; [left; congruence|right]. split; [congruence|]. split; [left; reflexivity|]. auto.
    + destruct (S1 j) as [Y|(-> & Y1 & Y2 & Y3)].
      * rewrite Y in *. right. split; [exact X|]. split; [left; reflexivity|]. auto.
      * rewrite Y3 in U. discriminate.
  - cbn. split; [reflexivity|]. split; [|auto]. unfold ar_at in A. rewrite <- A. symmetry. apply put_nth_same.
Qed.

(** * Changes of the control flags of a session *)

(** [s'] differs from [s] only in the flags that handlers of requests set. *)
Definition tweak (s s' : sess) : Prop :=
  exists r k a d, s' = with_dseq (with_ar (with_kill (with_release s r) k) a) d.
Lemma tweak_refl : forall s, tweak s s.
Proof. intros s. exists (s_release s), (s_kill s), (s_ar s), (s_dseq s). destruct s; reflexivity. Qed.
Lemma tweak_trans : forall a b c, tweak a b -> tweak b c -> tweak a c.
Proof. intros a b c (r & k & x & d & ->) (r2 & k2 & x2 & d2 & ->). exists r2, k2, x2, d2. reflexivity. Qed.
Lemma tweak_kill : forall s v, tweak s (with_kill s v).
Proof. intros s v. exists (s_release s), v, (s_ar s), (s_dseq s). destruct s; reflexivity. Qed.
Lemma tweak_ar : forall s v, tweak s (with_ar s v).
Proof. intros s v. exists (s_release s), (s_kill s), v, (s_dseq s). destruct s; reflexivity. Qed.
Lemma tweak_release : forall s v, tweak s (with_release s v).
Proof. intros s v. exists v, (s_kill s), (s_ar s), (s_dseq s). destruct s; reflexivity. Qed.
Lemma tweak_dseq : forall s v, tweak s (with_dseq s v).
Proof. intros s v. exists (s_release s), (s_kill s), (s_ar s), v. destruct s; reflexivity. Qed.

(** Session [k] keeps its contents up to flags (or is released); every other one stays
    as it is, or is released because a connection ended. *)
Definition touches (c : cfg) (k : nat) (st st' : net) (e : list ev) : Prop :=
  length (n_sess st') = length (n_sess st) /\
  (tweak (sess_at c st k) (sess_at c st' k) \/ (tweak (blank c) (sess_at c st' k) /\ exists i, In (Ended i) e)) /\
  forall j, j <> k -> sess_at c st' j = sess_at c st j \/ (sess_at c st' j = blank c /\ exists i, In (Ended i) e).

Lemma touches_refl : forall c k st, touches c k st st [].
Proof. intros. split; [reflexivity|]. split; [left; apply tweak_refl|]. auto. Qed.

Lemma touches_trans : forall c k a b d e1 e2, touches c k a b e1 -> touches c k b d e2 -> touches c k a d (e1 ++ e2).
Proof.
  intros c k a b d e1 e2 (L1 & K1 & O1) (L2 & K2 & O2). split; [congruence|].
  assert (I1 : (exists i, In (Ended i) e1) -> exists i, In (Ended i) (e1 ++ e2)) by (intros [i I1]; exists i; apply in_or_app; auto).
  assert (I2 : (exists i, In (Ended i) e2) -> exists i, In (Ended i) (e1 ++ e2)) by (intros [i I2]; exists i; apply in_or_app; auto).
  split.
  - destruct K2 as [K2|[K2 N2]]; [|right; auto]. destruct K1 as [K1|[K1 N1]]; [left|right; split; auto]; eapply tweak_trans; eauto.
  - intros j J. destruct (O2 j J) as [X|[X N]]; [|right; auto]. destruct (O1 j J) as [Y|[Y N]]; [left; congruence|right; split; auto; congruence].
Qed.

Lemma touches_set : forall c k st s, (k < length (n_sess st))%nat -> tweak (sess_at c st k) s -> touches c k st (set_sess st k s) [].
Proof.
  intros c k st s L T. split; [apply length_set_sess|]. split.
  - left. rewrite sess_at_set_same by exact L. exact T.
  - intros j J. left. apply sess_at_set_other. exact J.
Qed.

Lemma touches_set_ar : forall c k st i v e, touches c k st (set_ar st i v) e.
Proof. intros. split; [reflexivity|]. split; [left; apply tweak_refl|]. auto. Qed.

Lemma touches_abort : forall c k i st, touches c k st (fst (abort c i st)) (snd (abort c i st)).
Proof.
  intros c k i st. destruct (abort_sessions c i st) as (L & _ & S1). split; [exact L|]. split.
  - destruct (S1 k) as [X|(X & E & _)]; rewrite X; [left; apply tweak_refl|right; split; [apply tweak_refl|eauto]].
  - intros j J. destruct (S1 j) as [X|(X & E & _)]; [auto|right; eauto].
Qed.

Lemma touches_cons : forall c k st st' e x, touches c k st st' e -> touches c k st st' (x :: e).
Proof.
  intros c k st st' e x (L & K & O). split; [exact L|].
  assert (Q : (exists i, In (Ended i) e) -> exists i, In (Ended i) (x :: e)) by (intros [i I]; exists i; right; exact I).
  split; [destruct K as [K|[K N]]; auto|]. intros j J. destruct (O j J) as [X|[X N]]; auto.
Qed.

Lemma touches_kill_if : forall c k st b, (k < length (n_sess st))%nat -> touches c k st (kill_if c b k st) [].
Proof. intros. apply touches_set; [assumption|apply tweak_kill]. Qed.

Lemma touches_len : forall c k st st' e, touches c k st st' e -> length (n_sess st') = length (n_sess st).
Proof. intros c k st st' e H. apply H. Qed.

Lemma do_connect_touches : forall c o k err st, (k < length (n_sess st))%nat ->
  touches c k st (fst (do_connect c o k err st)) (snd (do_connect c o k err st)).
Proof.
  intros c o k err st L. unfold do_connect.
  assert (F : touches c k st (connect_fails c k st) []).
  { apply touches_set; [exact L|]. eapply tweak_trans; [apply tweak_ar|apply tweak_kill]. }
  destruct err; [exact F|].
  destruct (o_effect o) as [| |[]|i|i]; try exact F.
  - destruct (free_ar (n_ar st) 0) as [i|]; [|exact F]. cbn [fst snd].
    apply (touches_trans c k st _ _ [] [Connected i k] (touches_set c k st _ L (tweak_ar _ (Some i)))). apply touches_set_ar.
  - destruct (ar_at st i) as [j|]; [|exact F].
    match goal with |- touches c k st (fst (abort c i ?s)) _ => set (st1 := s) end.
    change (snd (abort c i st1)) with ([] ++ snd (abort c i st1)).
    apply (touches_trans c k st st1); [|apply touches_abort].
    apply touches_set; [exact L|]. destruct (Nat.eqb j k); [|apply tweak_kill].
    eapply tweak_trans; [apply tweak_release|apply tweak_kill].
Qed.

Lemma do_release_touches : forall c o k err st, (k < length (n_sess st))%nat ->
  touches c k st (fst (do_release c o k err st)) (snd (do_release c o k err st)).
Proof.
  intros c o k err st L. unfold do_release.
  assert (H : let p := (if err then (st, []) else match o_effect o with ERelease i => abort c i st | _ => (st, []) end) in
    touches c k st (fst p) (snd p)).
  { destruct err; [apply touches_refl|]. destruct (o_effect o); try apply touches_refl. apply touches_abort. }
  cbn zeta in H. destruct (if err then (st, []) else match o_effect o with ERelease i => abort c i st | _ => (st, []) end) as [st1 e].
  cbn [fst snd] in *. replace e with (e ++ []) by apply app_nil_r. apply (touches_trans c k st st1); [exact H|].
  apply touches_set; [rewrite (touches_len _ _ _ _ _ H); exact L|apply tweak_kill].
Qed.

Lemma rpc_request_touches : forall c o k h r st, (k < length (n_sess st))%nat ->
  touches c k st (fst (fst (rpc_request c o k h r st))) (snd (fst (rpc_request c o k h r st))).
Proof.
  intros c o k h r st L. unfold rpc_request.
  assert (K : forall b x, touches c k st (kill_if c b k st) [x]) by (intros; apply touches_cons, touches_kill_if; exact L).
  destruct (h_opnum h =? op_connect).
  { pose proof (do_connect_touches c o k (s_err (sess_at c st k)) st L) as H. destruct (do_connect c o k _ st). apply touches_cons. exact H. }
  destruct (h_opnum h =? op_release).
  { pose proof (do_release_touches c o k (s_err (sess_at c st k)) st L) as H. destruct (do_release c o k _ st). apply touches_cons. exact H. }
  destruct (h_opnum h =? op_read); [apply K|].
  destruct (h_opnum h =? op_write); [apply K|].
  destruct (h_opnum h =? op_control).
  { destruct (o_parsed o); [|apply touches_refl].
    destruct (s_dseq (sess_at c st k) =? h_seq h); [apply touches_cons, touches_refl|]. cbn [fst snd].
    apply (touches_trans c k st (kill_if c (is_ekill (o_effect o)) k st) _ [] _); [apply touches_kill_if; exact L|].
    apply touches_cons. apply touches_set; [|apply tweak_dseq].
    unfold kill_if. rewrite length_set_sess. exact L. }
  destruct (h_opnum h =? op_read_implicit); [apply K|]. apply touches_refl.
Qed.

Lemma cancel_touches : forall c k st, (k < length (n_sess st))%nat -> touches c k st (fst (cancel c k st)) (snd (cancel c k st)).
Proof.
  intros c k st L. unfold cancel.
  assert (H : let p := match s_ar (sess_at c st k) with Some i => abort c i st | None => (st, []) end in touches c k st (fst p) (snd p)).
  { destruct (s_ar (sess_at c st k)); [apply touches_abort|apply touches_refl]. }
  cbn zeta in H. destruct (match s_ar (sess_at c st k) with Some i => abort c i st | None => (st, []) end) as [st1 e].
  cbn [fst snd] in *. replace e with (e ++ []) by apply app_nil_r. apply (touches_trans c k st st1); [exact H|].
  apply touches_set; [rewrite (touches_len _ _ _ _ _ H); exact L|apply tweak_kill].
Qed.

(** * Well-formed sessions *)
Definition cfg_ok (c : cfg) : Prop := 80 <= c_buf c <= 65535.

(** Progress of a message that is being sent. *)
Definition out_ok (c : cfg) (s : sess) : Prop :=
  0 <= s_out_len s <= c_buf c /\
  ((s_out_frag s = 0 /\ s_sent_pos s = 0 /\ 0 <= s_send_len s <= s_out_len s /\ (s_send_len s < s_out_len s -> s_send_len s = 1440)) \/
   (0 < s_out_frag s /\ s_sent_pos s = 1440 + 1360 * (s_out_frag s - 1) /\ 80 < s_send_len s <= 1440 /\
    s_sent_pos s + s_send_len s - 80 <= s_out_len s /\ 1440 < s_out_len s /\
    (s_sent_pos s + s_send_len s - 80 < s_out_len s -> s_send_len s = 1440))).

Definition sess_ok (c : cfg) (s : sess) : Prop :=
  (Z.of_nat (length (s_in s)) = c_buf c /\ Forall byte (s_in s)) /\ Z.of_nat (length (s_out s)) = c_buf c /\
  0 <= s_in_len s <= c_buf c /\ 0 <= s_in_frag s /\ out_ok c s /\ 0 <= s_counter s.

Definition net_ok (c : cfg) (st : net) : Prop := length (n_sess st) = c_sessions c /\ forall k, sess_ok c (sess_at c st k).

Lemma zeros_bytes : forall n, Forall byte (zeros n).
Proof. intros n. unfold zeros. apply Forall_forall. intros x X. apply repeat_spec in X. subst. unfold byte. lia. Qed.

Lemma blank_ok : forall c, cfg_ok c -> sess_ok c (blank c).
Proof.
  intros c [C1 C2]. pose proof (zeros_bytes (c_buf c)) as Z0. unfold sess_ok, out_ok, blank. cbn [s_in s_out s_in_len s_in_frag s_out_len s_out_frag s_sent_pos s_send_len s_counter].
  unfold zeros at 1 3. rewrite repeat_length. split; [split; [lia|exact Z0]|]. lia.
Qed.

Lemma init_ok : forall c, cfg_ok c -> net_ok c (rpc_init c).
Proof.
  intros c C. split; [apply repeat_length|]. intros k. unfold sess_at, rpc_init. cbn [n_sess].
  rewrite nth_repeat. apply blank_ok. exact C.
Qed.

Lemma set_ok : forall c st k s, net_ok c st -> sess_ok c s -> net_ok c (set_sess st k s).
Proof.
  intros c st k s [L H] S1. split; [rewrite length_set_sess; exact L|]. intros j.
  destruct (Nat.eq_dec j k) as [->|N]; [|rewrite sess_at_set_other by exact N; apply H].
  destruct (Nat.lt_ge_cases k (length (n_sess st))) as [G|G]; [rewrite sess_at_set_same by exact G; exact S1|].
  unfold sess_at. rewrite nth_overflow by (rewrite length_set_sess; exact G).
  pose proof (H k) as Hk. unfold sess_at in Hk. rewrite nth_overflow in Hk by exact G. exact Hk.
Qed.

Lemma tweak_ok : forall c s s', tweak s s' -> sess_ok c s -> sess_ok c s'.
Proof. intros c s s' (r & k & a & d & ->) H. exact H. Qed.

Lemma touches_ok : forall c k st st' e, cfg_ok c -> touches c k st st' e -> net_ok c st -> net_ok c st'.
Proof.
  intros c k st st' e C (L & K & O) [L0 H]. split; [congruence|]. intros j. destruct (Nat.eq_dec j k) as [->|N].
  - destruct K as [K|[K _]]; (eapply tweak_ok; [exact K|]); [apply H|apply blank_ok; exact C].
  - destruct (O j N) as [X|[X _]]; rewrite X; [apply H|apply blank_ok; exact C].
Qed.

Lemma release_net_ok : forall c k st, cfg_ok c -> net_ok c st -> net_ok c (fst (release c k st)).
Proof.
  intros c k st C [L H]. destruct (release_sessions c k st) as (L1 & _ & S1). split; [congruence|]. intros j.
  destruct (S1 j) as [X|[_ X]]; rewrite X; [apply H|apply blank_ok; exact C].
Qed.

Lemma abort_net_ok : forall c i st, cfg_ok c -> net_ok c st -> net_ok c (fst (abort c i st)).
Proof. intros c i st C N. eapply touches_ok; [exact C|apply (touches_abort c 0)|exact N]. Qed.

(** * Sending *)
Lemma send_len_range : forall c s, out_ok c s -> 0 <= s_send_len s <= c_buf c.
Proof. intros c s (A & [(B & D & E & F)|(B & D & E & F & G)]); lia. Qed.

Lemma send_once_ok : forall c o k s, sess_ok c s ->
  send_once o k s = Ok (send_buffer o k s (firstn (Z.to_nat (s_send_len s)) (s_out s))).
Proof.
  intros c o k s (A & B & D & E & F & G). unfold send_once. pose proof (send_len_range c s F).
  rewrite slice_ok by lia. reflexivity.
Qed.

(** The repetition only fails without connection and after the last repetition. *)
Lemma send_with_timeout_ok : forall c o k st, cfg_ok c -> net_ok c st ->
  (s_socket (sess_at c st k) < 0 \/ 0 < s_counter (sess_at c st k) \/ s_ar (sess_at c st k) <> None) ->
  exists st' e, send_with_timeout c o k st = Ok (st', e) /\ net_ok c st'.
Proof.
  intros c o k st C N H. unfold send_with_timeout.
  destruct (Z.ltb_spec (s_socket (sess_at c st k)) 0) as [S0|S0]; [eexists _, _; split; [reflexivity|exact N]|].
  destruct (Z.ltb_spec 0 (s_counter (sess_at c st k))) as [R|R].
  - pose proof (proj2 N k) as Sk. cbn zeta.
    set (s1 := with_resend (sess_at c st k) false (s_counter (sess_at c st k) - 1)).
    assert (S1 : sess_ok c s1) by (unfold sess_ok, s1 in *; cbn; intuition).
    rewrite (send_once_ok c o k s1 S1). cbn [obind].
    destruct (send_buffer o k s1 (firstn (Z.to_nat (s_send_len s1)) (s_out s1))) as [ok e].
    eexists _, _. split; [reflexivity|]. apply set_ok; [exact N|]. exact S1.
  - destruct (s_ar (sess_at c st k)) as [i|]; [|exfalso; destruct H as [H|[H|H]]; [lia|lia|apply H; reflexivity]]. cbn zeta.
    match goal with |- context [abort c i ?s] => set (st1 := s) end.
    assert (N1 : net_ok c st1) by (apply set_ok; [exact N|exact (proj2 N k)]).
    pose proof (abort_net_ok c i st1 C N1) as N2. destruct (abort c i st1) as [st2 e]. cbn [fst] in N2.
    destruct (s_from_me (sess_at c st k) && (-1 <? s_socket (sess_at c st2 k))); eexists _, _; (split; [reflexivity|]); [|exact N2].
    apply set_ok; [exact N2|]. exact (proj2 N2 k).
Qed.

Lemma out_frame_length : length out_frame = 1500%nat.
Proof. apply repeat_length. Qed.

Lemma flag0 : flag 0. Proof. left; reflexivity. Qed.
Lemma flag1 : flag 1. Proof. right; reflexivity. Qed.

Lemma hdr_in_bytes : forall h, hdr_in h -> 0 <= h_bodylen h < 65536 /\ 0 <= h_fragnmb h < 65536 /\ byte (h_serial_high h) /\ byte (h_serial_low h).
Proof. intros h H. unfold hdr_in in H. tauto. Qed.

Lemma slice_head : forall a b n, Z.of_nat (length a) = n -> slice (a ++ b) 0 n = Ok a.
Proof.
  intros a b n H. rewrite slice_ok by (rewrite ?app_length; lia). cbn [Z.to_nat skipn].
  rewrite firstn_app. replace (Z.to_nat n) with (length a) by lia. rewrite firstn_all, Nat.sub_diag. cbn. rewrite app_nil_r. reflexivity.
Qed.

Definition ping_header (h : rpch) (be : bool) := set_flags h pt_resp_ping 0 0 1 1 be (h_bodylen h) 0 (h_serial_high h) (h_serial_low h).
Definition ack_header (h : rpch) (be : bool) := set_flags h pt_frag_ack 0 0 0 0 be 0 (h_fragnmb h) (h_serial_high h) (h_serial_low h).
Definition reject_header (h : rpch) (be : bool) := set_flags h pt_reject 0 0 1 1 be 4 0 (h_serial_high h) (h_serial_low h).

Lemma simple_headers_ok : forall h be, hdr_in h -> rpch_ok (ping_header h be) /\ rpch_ok (ack_header h be) /\ rpch_ok (reject_header h be).
Proof.
  intros h be H. destruct (hdr_in_bytes h H) as (A & B & D & E). pose proof flag0. pose proof flag1.
  split; [|split]; apply set_flags_ok; try assumption; unfold pt_resp_ping, pt_frag_ack, pt_reject; lia.
Qed.

Lemma answer_ping_ok : forall o k h s, hdr_in h -> answer_ping o k h s = Ok (snd (send_buffer o k s (hbytes (ping_header h (s_be s))))).
Proof.
  intros o k h s H. destruct (simple_headers_ok h (s_be s) H) as (P & _ & _). unfold answer_ping. fold (ping_header h (s_be s)).
  rewrite put_header_ok; [|exact P|rewrite out_frame_length; unfold max_payload; lia|reflexivity]. cbn [obind].
  rewrite slice_head by (rewrite hbytes_length by exact P; reflexivity). reflexivity.
Qed.
Lemma answer_ack_ok : forall o k h s, hdr_in h -> answer_ack o k h s = Ok (snd (send_buffer o k s (hbytes (ack_header h (s_be s))))).
Proof.
  intros o k h s H. destruct (simple_headers_ok h (s_be s) H) as (_ & P & _). unfold answer_ack. fold (ack_header h (s_be s)).
  rewrite put_header_ok; [|exact P|rewrite out_frame_length; unfold max_payload; lia|reflexivity]. cbn [obind].
  rewrite slice_head by (rewrite hbytes_length by exact P; reflexivity). reflexivity.
Qed.
Lemma answer_reject_ok : forall o k h s, hdr_in h ->
  answer_reject o k h s = Ok (snd (send_buffer o k s (hbytes (reject_header h (s_be s)) ++ e32 (s_be s) nca_proto_error))).
Proof.
  intros o k h s H. destruct (simple_headers_ok h (s_be s) H) as (_ & _ & P). unfold answer_reject. fold (reject_header h (s_be s)).
  rewrite put_header_ok; [|exact P|rewrite out_frame_length; unfold max_payload; lia|reflexivity]. cbn [obind].
  pose proof (hbytes_length _ P) as L. pose proof out_frame_length as F.
  rewrite (enc_u32 (s_be s) nca_proto_error) by
    (try rewrite e32_length; try rewrite app_length, skipn_length; unfold nca_proto_error, max_payload; lia).
  cbn [obind w_buf w_pos]. rewrite e32_length. unfold put_at. change (Z.to_nat 80) with 80%nat.
  rewrite firstn_app, firstn_all2 by lia. rewrite L, Nat.sub_diag. cbn [firstn]. rewrite app_nil_r, app_assoc.
  rewrite slice_head by (rewrite app_length, L, e32_length; reflexivity). reflexivity.
Qed.

(** * Requests *)
Lemma hdr_answer_ok : forall h be frag nofack idem, hdr_in h -> flag frag -> flag nofack -> flag idem ->
  rpch_ok (set_flags h pt_response 0 frag nofack idem be (h_bodylen h) 0 0 0).
Proof.
  intros h be frag nofack idem H A B D. destruct (hdr_in_bytes h H) as (X & Y & Z0 & W). pose proof flag0. pose proof flag1.
  apply set_flags_ok; try assumption; unfold byte, pt_response; lia.
Qed.

Lemma get_ndr_ok : forall r, rok r -> exists nd r', get_ndr r = Ok (nd, r') /\ rok r' /\ r_buf r' = r_buf r /\ r_len r' = r_len r.
Proof.
  intros r R. destruct (safe_ndr true r R) as (nd & r' & E & _ & S1). exists nd, r'. split; [exact E|].
  split; [eapply rok_step; eauto|]. split; apply S1.
Qed.

Lemma request_limit_ok : forall c h r, cfg_ok c -> rok r ->
  exists m r1 be, request_limit c h r = Ok (m, r1, be) /\ 0 <= m <= c_buf c /\ rok r1 /\ be = negb (uuid_eqb (h_interface h) uuid_epmap).
Proof.
  intros c h r [C1 C2] R. unfold request_limit. destruct (uuid_eqb (h_interface h) uuid_epmap).
  - eexists _, _, _. split; [reflexivity|]. split; [lia|]. auto.
  - destruct (get_ndr_ok r R) as (nd & r' & E & R' & _). rewrite E. cbn [obind].
    eexists _, _, _. split; [reflexivity|]. split; [|auto].
    pose proof (u32_range (r_pos r' + n_argsmax nd)). destruct (Z.ltb_spec (c_buf c) (u32 (r_pos r' + n_argsmax nd))); [lia|].
    rewrite u16_id by lia. lia.
Qed.

(** Everything that is sent stays the same. *)
Definition same_out (s s' : sess) : Prop :=
  s_in s' = s_in s /\ s_in_len s' = s_in_len s /\ s_in_frag s' = s_in_frag s /\
  s_out s' = s_out s /\ s_out_len s' = s_out_len s /\ s_sent_pos s' = s_sent_pos s /\ s_send_len s' = s_send_len s /\
  s_out_frag s' = s_out_frag s /\ s_counter s' = s_counter s /\ s_ip s' = s_ip s /\ s_port s' = s_port s /\ s_uuid s' = s_uuid s /\
  s_from_me s' = s_from_me s /\ s_be s' = s_be s /\ s_used s' = s_used s /\ s_resend s' = s_resend s.

Lemma same_out_refl : forall s, same_out s s.
Proof. intros s. unfold same_out. tauto. Qed.
Lemma same_out_tweak : forall s s', tweak s s' -> same_out s s'.
Proof. intros s s' (r & k & a & d & ->). unfold same_out. cbn. tauto. Qed.
Lemma same_out_ok : forall c s s', same_out s s' -> sess_ok c s -> sess_ok c s'.
Proof.
  intros c s s' (A & B & D & E & F & G & H & I & J & _) S1. unfold sess_ok, out_ok in *. rewrite A, B, D, E, F, G, H, I, J. exact S1.
Qed.

Lemma handle_out : forall c o k h r2 st, (k < length (n_sess st))%nat ->
  let '(st2, e, _) := handle c o k h r2 st in
  length (n_sess st2) = length (n_sess st) /\
  (same_out (sess_at c st k) (sess_at c st2 k) \/ (same_out (blank c) (sess_at c st2 k) /\ exists i, In (Ended i) e)) /\
  forall j, j <> k -> sess_at c st2 j = sess_at c st j \/ (sess_at c st2 j = blank c /\ exists i, In (Ended i) e).
Proof.
  intros c o k h r2 st L. unfold handle.
  destruct (uuid_eqb (h_interface h) uuid_io_device).
  - pose proof (rpc_request_touches c o k h r2 st L) as H. destruct (rpc_request c o k h r2 st) as [[st2 e] p]. cbn [fst snd] in H.
    destruct H as (H1 & H2 & H3). split; [exact H1|]. split; [|exact H3].
    destruct H2 as [H2|[H2 N]]; [left|right; split; [|exact N]]; apply same_out_tweak; exact H2.
  - destruct (uuid_eqb (h_interface h) uuid_epmap).
    + cbn zeta. split; [apply length_set_sess|]. split.
      * left. rewrite sess_at_set_same by exact L.
        repeat match goal with |- context [if ?b then _ else _] => destruct b end; unfold same_out; cbn; tauto.
      * intros j J. left. apply sess_at_set_other. exact J.
    + split; [reflexivity|]. split; [left; apply same_out_refl|auto].
Qed.

(** While a response is written, the session is not yet in order. *)
Definition sess_mid (c : cfg) (s : sess) : Prop :=
  (Z.of_nat (length (s_in s)) = c_buf c /\ Forall byte (s_in s)) /\ Z.of_nat (length (s_out s)) = c_buf c /\
  0 <= s_in_len s <= c_buf c /\ 0 <= s_in_frag s /\ 0 <= s_counter s /\
  0 <= s_out_len s <= c_buf c /\ s_out_frag s = 0 /\ s_sent_pos s = 0.
Definition net_mid (c : cfg) (k : nat) (st : net) : Prop :=
  length (n_sess st) = c_sessions c /\ sess_mid c (sess_at c st k) /\ forall j, j <> k -> sess_ok c (sess_at c st j).
Lemma mid_set : forall c k st s, net_mid c k st -> sess_ok c s -> net_ok c (set_sess st k s).
Proof.
  intros c k st s (L & A & B) S1. split; [rewrite length_set_sess; exact L|]. intros j.
  destruct (Nat.eq_dec j k) as [->|N]; [|rewrite sess_at_set_other by exact N; apply B; exact N].
  destruct (Nat.lt_ge_cases k (length (n_sess st))) as [G|G]; [rewrite sess_at_set_same by exact G; exact S1|].
  unfold sess_at. rewrite nth_overflow by (rewrite length_set_sess; exact G).
  assert (X : sess_mid c (blank c)) by (unfold sess_at in A; rewrite nth_overflow in A by exact G; exact A).
  unfold sess_mid, sess_ok, out_ok in *. cbn in *. intuition lia.
Qed.
Lemma same_out_mid : forall c s s', same_out s s' -> sess_mid c s -> sess_mid c s'.
Proof.
  intros c s s' (A & B & D & E & F & G & H & I & J & _) S1. unfold sess_mid in *. rewrite A, B, D, E, F, G, I, J. exact S1.
Qed.
Lemma blank_mid : forall c, cfg_ok c -> sess_mid c (blank c).
Proof.
  intros c [C1 C2]. pose proof (zeros_bytes (c_buf c)) as Z0. unfold sess_mid, blank. cbn [s_in s_out s_in_len s_in_frag s_out_len s_out_frag s_sent_pos s_send_len s_counter].
  unfold zeros at 1 3. rewrite repeat_length. split; [split; [lia|exact Z0]|]. lia.
Qed.

Lemma request_start_ok : forall c o k h m be st, cfg_ok c -> net_ok c st -> hdr_in h -> 0 <= m <= c_buf c -> (k < length (n_sess st))%nat ->
  exists st1 start lpos, request_start c o k h m be st = Ok (st1, start, lpos) /\ net_mid c k st1 /\ 0 <= lpos <= start /\ start <= 80 /\
    length (n_sess st1) = length (n_sess st) /\
    s_out_len (sess_at c st1 k) <= m /\ start <= s_out_len (sess_at c st1 k) /\
    s_out_frag (sess_at c st1 k) = 0 /\ s_sent_pos (sess_at c st1 k) = 0 /\
    forall j, j <> k -> sess_at c st1 j = sess_at c st j.
Proof.
  intros c o k h m be st C N H M L. unfold request_start. cbn zeta.
  pose proof (proj2 N k) as (I1 & I2 & I3 & I4 & I5 & I6).
  destruct (put_header_any (set_flags h pt_response 0 0 1 1 be (h_bodylen h) 0 0 0) (s_out (sess_at c st k)) m) as (b0 & start & lpos & E & Lb & P1 & P2).
  { apply hdr_answer_ok; [exact H|apply flag0|apply flag1|apply flag1]. }
  { lia. } { unfold cfg_ok in C. lia. }
  rewrite E. cbn [obind].
  set (body := if _ || _ then _ else []).
  assert (B : start + Z.of_nat (length body) <= m).
  { unfold body. destruct (_ || _); [rewrite firstn_length|cbn [length]]; lia. }
  clearbody body. rewrite poke_ok by lia. cbn [obind].
  eexists _, _, _. split; [reflexivity|].
  fold (put_at b0 (Z.to_nat start) body).
  assert (Lp : length (put_at b0 (Z.to_nat start) body) = length b0) by (apply put_at_length; lia).
  split; [|split; [lia|split; [lia|split; [apply length_set_sess|]]]].
  - split; [rewrite length_set_sess; apply N|]. rewrite sess_at_set_same by exact L. split.
    + unfold sess_mid. destruct (h_opnum h =? op_release); cbn; rewrite Lp; repeat split; first [lia | apply I1 | tauto].
    + intros j J. rewrite sess_at_set_other by exact J. apply N.
  - rewrite sess_at_set_same by exact L. cbn. split; [lia|]. split; [lia|]. split; [reflexivity|]. split; [reflexivity|].
    intros j J. apply sess_at_set_other. exact J.
Qed.

Lemma request_send_ok : forall c o k h m start lpos be st2, cfg_ok c -> net_mid c k st2 -> hdr_in h -> 0 <= m <= c_buf c -> (k < length (n_sess st2))%nat ->
  0 <= lpos -> s_out_len (sess_at c st2 k) <= m ->
  exists st3 e, request_send c o k h m start lpos be st2 = Ok (st3, e) /\ net_ok c st3.
Proof.
  intros c o k h m start lpos be st2 C N H M L P B. unfold request_send. cbn zeta.
  pose proof (proj1 (proj2 N)) as (I1 & I2 & I3 & I4 & I5 & I6 & F0 & S0). set (s5 := sess_at c st2 k) in *. unfold cfg_ok in C.
  destruct (Z.ltb_spec (s_out_len s5) max_payload) as [G|G]; cbn [obind].
  - destruct (put_len_any be (u16 (s_out_len s5 - start)) (s_out s5) (s_out_len s5) lpos P ltac:(lia) ltac:(lia)) as (b3 & E & Lb).
    rewrite E. cbn [obind].
    assert (S6 : sess_ok c (with_out s5 b3 (s_out_len s5) (s_sent_pos s5) (s_out_len s5) (s_out_frag s5))).
    { unfold sess_ok, out_ok. cbn. rewrite Lb, F0, S0. repeat split; first [lia | apply I1 | tauto]. }
    rewrite (send_once_ok c o k _ S6). cbn [obind]. eexists _, _. split; [reflexivity|]. apply mid_set; assumption.
  - unfold max_payload in *.
    destruct (put_header_any (set_flags h pt_response 0 1 0 (if uuid_eqb (h_interface h) uuid_epmap then 0 else 1) be (h_bodylen h) 0 0 0) (s_out s5) m) as (b2 & start2 & lp & E & Lb & P1 & P2).
    { apply hdr_answer_ok; [exact H|apply flag1|apply flag0|]. destruct (uuid_eqb _ _); [apply flag0|apply flag1]. }
    { lia. } { lia. }
    rewrite E. cbn [obind].
    destruct (put_len_any be (u16 (1440 - start)) b2 1440 lp ltac:(lia) ltac:(lia) ltac:(lia)) as (b3 & E3 & Lb3).
    rewrite E3. cbn [obind].
    set (s6 := with_out s5 b3 (s_out_len s5) (s_sent_pos s5) 1440 (s_out_frag s5)).
    assert (S6 : sess_ok c (with_resend s6 (s_resend s6) number_of_resends)).
    { unfold sess_ok, out_ok, s6. cbn. rewrite Lb3, Lb, F0, S0. unfold number_of_resends. repeat split; first [lia | apply I1 | tauto]. }
    apply send_with_timeout_ok; [exact C|apply mid_set; assumption|].
    right. left. rewrite sess_at_set_same by exact L. cbn. reflexivity.
Qed.

Lemma answer_request_ok : forall c o k h r st, cfg_ok c -> net_ok c st -> hdr_in h -> rok r -> (k < length (n_sess st))%nat ->
  exists st' e, answer_request c o k h r st = Ok (st', e) /\ net_ok c st'.
Proof.
  intros c o k h r st C N H R L. unfold answer_request.
  destruct (request_limit_ok c h r C R) as (m & r1 & be & E & M & R1 & _). rewrite E. cbn [obind].
  destruct (request_start_ok c o k h m be st C N H M L) as (st1 & start & lpos & E1 & N1 & P1 & P2 & L1 & O1 & O2 & F1 & S1 & _).
  rewrite E1. cbn [obind].
  pose proof (handle_out c o k h (set_be r1 be) st1 ltac:(lia)) as Hh.
  destruct (handle c o k h (set_be r1 be) st1) as [[st2 e1] prmend]. destruct Hh as (L2 & K2 & O3).
  assert (N2 : net_mid c k st2).
  { split; [rewrite L2; apply N1|]. split.
    - destruct K2 as [K2|[K2 _]]; (eapply same_out_mid; [exact K2|]); [apply N1|apply blank_mid; exact C].
    - intros j J. destruct (O3 j J) as [X|[X _]]; rewrite X; [apply N1; exact J|apply blank_ok; exact C]. }
  assert (Q : s_out_len (sess_at c st2 k) <= m).
  { destruct K2 as [K2|[K2 _]]; destruct K2 as (_ & _ & _ & _ & A & _); rewrite A; [auto|]. cbn. lia. }
  destruct (request_send_ok c o k h m start lpos be st2 C N2 H M ltac:(lia) ltac:(lia) Q) as (st3 & e & E3 & N3).
  rewrite E3. cbn [obind]. eexists _, _. split; [reflexivity|exact N3].
Qed.

(** * Acknowledges *)
Definition next_header (h : rpch) (s : sess) (be : bool) (f last bl : Z) :=
  set_flags h (if s_from_me s then pt_request else pt_response) last 1 0 1 be bl f (u8 (Z.shiftr f 8)) (Z.land f 255).

Lemma next_header_ok : forall h s be f last bl, hdr_in h -> flag last -> 0 <= f < 65536 -> 0 <= bl < 65536 -> rpch_ok (next_header h s be f last bl).
Proof.
  intros h s be f last bl H La F B. pose proof flag0. pose proof flag1. apply set_flags_ok; try assumption.
  - destruct (s_from_me s); unfold pt_request, pt_response; lia.
  - apply u8_range.
  - unfold byte. rewrite land255. apply Z.mod_pos_bound. lia.
Qed.

(** The next fragment: position, size and bytes. *)
Definition next_pos (s : sess) : Z := if s_out_frag s =? 0 then s_send_len s else s_sent_pos s + s_send_len s - 80.

Lemma next_pos_model : forall c s, cfg_ok c -> out_ok c s ->
  (if 0 <? s_out_frag s then u16 (u16 (s_sent_pos s + s_send_len s) - header_size) else u16 (s_sent_pos s + s_send_len s)) = next_pos s /\
  0 <= next_pos s <= s_out_len s /\ 0 <= s_out_frag s < 65535.
Proof.
  intros c s C (A & B). unfold cfg_ok in C. unfold next_pos, header_size. destruct B as [(B1 & B2 & B3 & B4)|(B1 & B2 & B3 & B4 & B5 & B6)].
  - rewrite B1, B2. cbn. rewrite !u16_id by lia. lia.
  - destruct (Z.ltb_spec 0 (s_out_frag s)); [|lia]. destruct (Z.eqb_spec (s_out_frag s) 0); [lia|].
    assert (W : u16 (u16 (s_sent_pos s + s_send_len s) - 80) = u16 (s_sent_pos s + s_send_len s - 80)) by (unfold u16; apply Zminus_mod_idemp_l).
    rewrite W, u16_id by lia. lia.
Qed.
