(** C97: a connection refers to its own session. *)
From Coq Require Import List ZArith Arith Bool Lia.
From Verif Require Import Base CpmModel CpmProps PpmModel PpmProps BlockModel BlockReadLemmas BlockReadProps BlockWriteProps RpcModel RpcLemmas RpcInv RpcStep RpcProps RpcFrame RpcIdent RpcAnswer RpcReply RpcReplyProps RpcRepeatProps RpcDseqProps RpcTableProps.
Import ListNotations.
Local Open Scope Z_scope.

(** * Specification *)

(** Each connection refers to a session in use, of a controller, which belongs to this
    connection; a session in use refers to a connection that refers to it, or, if the
    device opened it, to a connection in use. *)
Definition own (c : cfg) (st : net) : Prop :=
  (forall i k, ar_at st i = Some k -> s_used (sess_at c st k) = true /\ s_ar (sess_at c st k) = Some i /\ s_from_me (sess_at c st k) = false) /\
  (forall k i, s_used (sess_at c st k) = true -> s_ar (sess_at c st k) = Some i -> if s_from_me (sess_at c st k) then ar_at st i <> None else ar_at st i = Some k).

(** What well-behaved controllers do.  Requests in the session of a connection: read,
    write and control requests with the AR UUID of a connection, and the release of this
    connection in one datagram; no answers to requests of the device in it; no request
    with the activity UUID of a request of the device; opnum 1 only as release; and the
    endpoint mapper is not asked in a session with a connection. *)
Definition fair (c : cfg) (st : net) (x : input * hres) : Prop :=
  match fst x with
  | IDatagram _ _ _ _ _ => forall h, has_header (fst x) h ->
      (h_ptype h = 0 -> h_opnum h = 1 -> h_interface h = uuid_io_device) /\
      forall k, s_used (sess_at c st k) = true -> s_uuid (sess_at c st k) = h_activity h ->
        (s_from_me (sess_at c st k) = true -> h_ptype h <> 0) /\
        (forall i, s_from_me (sess_at c st k) = false -> s_ar (sess_at c st k) = Some i ->
          h_ptype h <> 2 /\
          (h_ptype h = 0 -> h_interface h = uuid_io_device /\ h_opnum h <> 0 /\ h_opnum h <> 5 /\ o_effect (snd x) <> EKill /\
             (h_opnum h = 1 -> o_effect (snd x) = ERelease i /\ h_frag h = 0)))
  | IEpm k => s_ar (sess_at c st k) = None
  | _ => True
  end.
Fixpoint all_fair (c : cfg) (l : list (input * hres)) (st : net) : Prop :=
  match l with
  | [] => True
  | x :: t => fair c st x /\ match step c x st with Ok (st1, _) => all_fair c t st1 | _ => True end
  end.

(** * Invariant *)

(** While session [k] is handled: what is marked to be released does not count. *)
Definition mid (c : cfg) (st : net) (k : nat) (rel : bool) : Prop :=
  length (n_sess st) = c_sessions c /\
  (forall i j, ar_at st i = Some j -> s_used (sess_at c st j) = true /\ s_ar (sess_at c st j) = Some i /\ s_from_me (sess_at c st j) = false /\ s_kill (sess_at c st j) = false) /\
  (forall j i, s_used (sess_at c st j) = true -> s_kill (sess_at c st j) = false -> s_ar (sess_at c st j) = Some i ->
     if s_from_me (sess_at c st j) then ar_at st i <> None else ar_at st i = Some j) /\
  (forall j, s_used (sess_at c st j) = true -> s_kill (sess_at c st j) = false -> (j = k -> rel = false) -> s_release (sess_at c st j) = false) /\
  (forall j, j <> k -> s_used (sess_at c st j) = true -> s_kill (sess_at c st j) = false).
Definition inv (c : cfg) (st : net) : Prop := mid c st 0 false /\ forall j, s_used (sess_at c st j) = true -> s_kill (sess_at c st j) = false.

Lemma inv_own : forall c st, inv c st -> own c st.
Proof.
  intros c st [(_ & M1 & M2 & _) K]. split.
  - intros i k A. destruct (M1 i k A) as (X & Y & Z1 & _). auto.
  - intros k i U A. apply M2; auto.
Qed.
Lemma inv_mid : forall c st k, inv c st -> mid c st k false.
Proof.
  intros c st k [(M0 & M1 & M2 & M3 & M4) K]. split; [exact M0|]. split; [exact M1|]. split; [exact M2|]. split; [intros j U _ _; apply M3; auto|]. intros j _ U. apply K, U.
Qed.
Lemma mid_inv : forall c st k, mid c st k false -> (s_used (sess_at c st k) = true -> s_kill (sess_at c st k) = false) -> inv c st.
Proof.
  intros c st k (M0 & M1 & M2 & M3 & M4) K.
  assert (KK : forall j, s_used (sess_at c st j) = true -> s_kill (sess_at c st j) = false) by (intros j; destruct (Nat.eq_dec j k) as [->|D]; [exact K|apply M4; exact D]).
  split; [|exact KK]. split; [exact M0|]. split; [exact M1|]. split; [exact M2|]. split; [intros j U Q _; apply M3; auto|]. intros j _. apply KK.
Qed.
Lemma init_inv : forall c, inv c (rpc_init c).
Proof.
  intros c. assert (S : forall j, sess_at c (rpc_init c) j = blank c) by (intros j; unfold sess_at, rpc_init; cbn [n_sess]; apply nth_repeat).
  assert (A : forall i, ar_at (rpc_init c) i = None) by (intros i; unfold ar_at, rpc_init; cbn [n_ar]; apply nth_repeat).
  split; [|intros j U; rewrite S in U; discriminate U]. split; [unfold rpc_init; cbn [n_sess]; apply repeat_length|].
  split; [intros i j Q; rewrite A in Q; discriminate Q|]. split; [intros j i U; rewrite S in U; discriminate U|].
  split; [intros j U; rewrite S in U; discriminate U|intros j _ U; rewrite S in U; discriminate U].
Qed.

(** Changes that do not matter. *)
Definition same5 (s s' : sess) : Prop :=
  s_used s' = s_used s /\ s_ar s' = s_ar s /\ s_from_me s' = s_from_me s /\ s_release s' = s_release s /\ s_kill s' = s_kill s.
Definition calm (c : cfg) (st st' : net) : Prop :=
  length (n_sess st') = length (n_sess st) /\ n_ar st' = n_ar st /\ forall j, same5 (sess_at c st j) (sess_at c st' j).
Lemma same5_refl : forall s, same5 s s.
Proof. intros s. repeat split. Qed.
Lemma calm_refl : forall c st, calm c st st.
Proof. intros c st. split; [reflexivity|]. split; [reflexivity|]. intros j. apply same5_refl. Qed.
Lemma calm_trans : forall c a b d, calm c a b -> calm c b d -> calm c a d.
Proof.
  intros c a b d (A1 & A2 & A3) (B1 & B2 & B3). split; [congruence|]. split; [congruence|]. intros j. specialize (A3 j). specialize (B3 j).
  unfold same5 in *. destruct A3 as (? & ? & ? & ? & ?). destruct B3 as (? & ? & ? & ? & ?). repeat split; congruence.
Qed.
Lemma calm_set : forall c st k s, (k < length (n_sess st))%nat -> same5 (sess_at c st k) s -> calm c st (set_sess st k s).
Proof.
  intros c st k s L H. split; [apply length_set_sess|]. split; [reflexivity|]. intros j. rewrite sess_at_set by exact L. destruct (Nat.eqb_spec j k) as [->|]; [exact H|apply same5_refl].
Qed.
Lemma mid_calm : forall c st st' k rel, mid c st k rel -> calm c st st' -> mid c st' k rel.
Proof.
  intros c st st' k rel (M0 & M1 & M2 & M3 & M4) (C0 & C1 & C2).
  assert (A : forall i, ar_at st' i = ar_at st i) by (intros i; unfold ar_at; rewrite C1; reflexivity).
  split; [congruence|]. split; [|split; [|split]].
  - intros i j Q. rewrite A in Q. specialize (M1 i j Q). destruct (C2 j) as (Q1 & Q2 & Q3 & Q4 & Q5). rewrite ?Q1, ?Q2, ?Q3, ?Q4, ?Q5. exact M1.
  - intros j i. destruct (C2 j) as (Q1 & Q2 & Q3 & Q4 & Q5). rewrite ?Q1, ?Q2, ?Q3, ?Q4, ?Q5. rewrite A. apply M2.
  - intros j. destruct (C2 j) as (Q1 & Q2 & Q3 & Q4 & Q5). rewrite ?Q1, ?Q2, ?Q3, ?Q4, ?Q5. apply M3.
  - intros j. destruct (C2 j) as (Q1 & Q2 & Q3 & Q4 & Q5). rewrite ?Q1, ?Q2, ?Q3, ?Q4, ?Q5. apply M4.
Qed.
Lemma inv_calm : forall c st st', inv c st -> calm c st st' -> inv c st'.
Proof.
  intros c st st' [M K] H. split; [exact (mid_calm _ _ _ _ _ M H)|]. destruct H as (_ & _ & C2). intros j. destruct (C2 j) as (Q1 & _ & _ & _ & Q5). rewrite Q1, Q5. apply K.
Qed.

(** The session is marked, and no connection refers to it. *)
Lemma mid_mark : forall c st k rel s, mid c st k rel -> (k < length (n_sess st))%nat -> (forall i, ar_at st i <> Some k) -> s_kill s = true -> mid c (set_sess st k s) k false.
Proof.
  intros c st k rel s (M0 & M1 & M2 & M3 & M4) L NA SK.
  assert (A : forall i, ar_at (set_sess st k s) i = ar_at st i) by reflexivity.
  split; [rewrite length_set_sess; exact M0|]. split; [|split; [|split]].
  - intros i j Q. rewrite A in Q. assert (D : j <> k) by (intros ->; exact (NA i Q)). rewrite sess_at_set_other by exact D. exact (M1 i j Q).
  - intros j i. rewrite sess_at_set by exact L. destruct (Nat.eqb_spec j k) as [->|D]; [congruence|]. rewrite A. apply M2.
  - intros j. rewrite sess_at_set by exact L. destruct (Nat.eqb_spec j k) as [->|D]; [congruence|]. intros U K _. apply M3; [exact U|exact K|congruence].
  - intros j D. rewrite sess_at_set_other by exact D. apply M4. exact D.
Qed.
Lemma no_ar : forall c st k rel, mid c st k rel -> s_ar (sess_at c st k) = None \/ s_from_me (sess_at c st k) = true \/ s_used (sess_at c st k) = false \/ s_kill (sess_at c st k) = true -> forall i, ar_at st i <> Some k.
Proof. intros c st k rel (M0 & M1 & _) H i Q. destruct (M1 i k Q) as (A & B & D & E). destruct H as [H|[H|[H|H]]]; congruence. Qed.

Lemma put_nth_other : forall (l : list (option nat)) i i', i' <> i -> nth i' (put_nth l i None) None = nth i' l None.
Proof. intros l. induction l as [|x l IH]; intros [|i] [|i'] D; cbn; try reflexivity; try congruence. apply IH. congruence. Qed.

Lemma abort_mid : forall c i st k rel, mid c st k rel -> (rel = true -> ar_at st i <> Some k) -> mid c (fst (abort c i st)) k rel.
Proof.
  intros c i st k rel M RL. pose proof M as (M0 & M1 & M2 & M3 & M4). destruct (ar_at st i) as [j0|] eqn:AI.
  2:{ unfold abort. rewrite AI. exact M. }
  destruct (abort_frees c i st M0 ltac:(congruence)) as (F0 & F1 & F2). pose proof (abort_sessions c i st) as (LA & NA & S1).
  assert (A : forall i', i' <> i -> ar_at (fst (abort c i st)) i' = ar_at st i') by (intros i' D; unfold ar_at; rewrite NA; apply put_nth_other; exact D).
  assert (RJ : s_release (sess_at c st j0) = false).
  { destruct (M1 i j0 AI) as (U & _ & _ & K). apply M3; [exact U|exact K|]. intros ->. destruct rel; [exfalso; apply (RL eq_refl); reflexivity|reflexivity]. }
  specialize (F1 j0 AI RJ). set (st' := fst (abort c i st)) in *. clearbody st'.
  split; [congruence|]. split; [|split; [|split]].
  - intros i' j Q. destruct (Nat.eq_dec i' i) as [->|D]; [congruence|]. rewrite A in Q by exact D. destruct (M1 i' j Q) as (U & B & FM & K).
    destruct (S1 j) as [X|(_ & _ & _ & [[X _]|[X _]])]; [rewrite X; auto| |congruence]. exfalso. assert (j0 = j) by congruence. subst j0. destruct (M1 i j AI) as (_ & Y & _). congruence.
  - intros j i' U K AR. destruct (S1 j) as [X|(X & _)]; [|rewrite X in U; discriminate U]. rewrite X in *. specialize (M2 j i' U K AR).
    destruct (Nat.eq_dec i' i) as [->|D]; [|rewrite A by exact D; exact M2]. exfalso. destruct (s_from_me (sess_at c st j)) eqn:FM.
    + specialize (F2 j FM AR). rewrite X in F2. congruence.
    + assert (j0 = j) by congruence. subst j0. rewrite X in F1. congruence.
  - intros j. destruct (S1 j) as [->|(-> & _)]; [apply M3|]. intros U. discriminate U.
  - intros j D. destruct (S1 j) as [->|(-> & _)]; [apply M4; exact D|]. intros U. discriminate U.
Qed.

(** The controller releases its own connection. *)
Lemma abort_release_mid : forall c i st k s, mid c st k true -> (k < length (n_sess st))%nat -> ar_at st i = Some k -> s_release (sess_at c st k) = true -> s_kill s = true ->
  mid c (set_sess (fst (abort c i st)) k s) k false.
Proof.
  intros c i st k s M L AI RK SK. pose proof M as (M0 & M1 & M2 & M3 & M4).
  destruct (abort_frees c i st M0 ltac:(congruence)) as (F0 & _ & F2). pose proof (abort_sessions c i st) as (LA & NA & S1).
  assert (A : forall i', i' <> i -> ar_at (fst (abort c i st)) i' = ar_at st i') by (intros i' D; unfold ar_at; rewrite NA; apply put_nth_other; exact D).
  set (st' := fst (abort c i st)) in *. clearbody st'. assert (L' : (k < length (n_sess st'))%nat) by lia.
  split; [rewrite length_set_sess; congruence|]. split; [|split; [|split]].
  - intros i' j Q. change (ar_at (set_sess st' k s) i') with (ar_at st' i') in Q. destruct (Nat.eq_dec i' i) as [->|D]; [congruence|]. rewrite A in Q by exact D. destruct (M1 i' j Q) as (U & B & FM & K).
    destruct (M1 i k AI) as (_ & Y & _). assert (JK : j <> k) by (intros ->; congruence). rewrite sess_at_set_other by exact JK.
    destruct (S1 j) as [X|(_ & _ & _ & [[X _]|[X _]])]; [rewrite X; auto| |congruence]. exfalso. congruence.
  - intros j i'. rewrite sess_at_set by exact L'. destruct (Nat.eqb_spec j k) as [->|JK]; [congruence|]. intros U K AR. change (ar_at (set_sess st' k s) i') with (ar_at st' i').
    destruct (S1 j) as [X|(X & _)]; [|rewrite X in U; discriminate U]. rewrite X in *. specialize (M2 j i' U K AR).
    destruct (Nat.eq_dec i' i) as [->|D]; [|rewrite A by exact D; exact M2]. exfalso. destruct (s_from_me (sess_at c st j)) eqn:FM; [|congruence].
    specialize (F2 j FM AR). rewrite X in F2. congruence.
  - intros j. rewrite sess_at_set by exact L'. destruct (Nat.eqb_spec j k) as [->|JK]; [congruence|]. destruct (S1 j) as [->|(-> & _)]; [|intros U; discriminate U].
    intros U K _. apply M3; [exact U|exact K|congruence].
  - intros j D. rewrite sess_at_set_other by exact D. destruct (S1 j) as [->|(-> & _)]; [apply M4; exact D|]. intros U. discriminate U.
Qed.

Lemma free_ar_spec : forall l i0 i, free_ar l i0 = Some i -> (i0 <= i < i0 + length l)%nat /\ nth (i - i0) l None = None.
Proof.
  intros l. induction l as [|x l IH]; intros i0 i H; cbn [free_ar] in H; [discriminate H|]. destruct x as [j|].
  - destruct (IH _ _ H) as [A B]. cbn [length]. split; [lia|]. replace (i - i0)%nat with (S (i - S i0)) by lia. exact B.
  - injection H as <-. cbn [length]. split; [lia|]. rewrite Nat.sub_diag. reflexivity.
Qed.
Lemma put_nth_get : forall (l : list (option nat)) i i' v, (i < length l)%nat -> nth i' (put_nth l i v) None = if Nat.eqb i' i then v else nth i' l None.
Proof. intros l. induction l as [|x l IH]; intros [|i] [|i'] v L; cbn in *; try lia; try reflexivity. apply IH. lia. Qed.

(** A new connection. *)
Lemma connect_mid : forall c st k i, mid c st k false -> (k < length (n_sess st))%nat -> s_used (sess_at c st k) = true -> s_kill (sess_at c st k) = false -> s_ar (sess_at c st k) = None -> s_from_me (sess_at c st k) = false ->
  free_ar (n_ar st) 0 = Some i -> mid c (set_ar (set_sess st k (with_ar (sess_at c st k) (Some i))) i (Some k)) k false.
Proof.
  intros c st k i (M0 & M1 & M2 & M3 & M4) L U K AR FM F. destruct (free_ar_spec _ _ _ F) as [LI AI]. rewrite Nat.sub_0_r in AI. fold (ar_at st i) in AI.
  assert (A : forall i', ar_at (set_ar (set_sess st k (with_ar (sess_at c st k) (Some i))) i (Some k)) i' = if Nat.eqb i' i then Some k else ar_at st i').
  { intros i'. unfold ar_at, set_ar, set_sess. cbn [n_ar]. apply put_nth_get. lia. }
  assert (S : forall j, sess_at c (set_ar (set_sess st k (with_ar (sess_at c st k) (Some i))) i (Some k)) j = if Nat.eqb j k then with_ar (sess_at c st k) (Some i) else sess_at c st j).
  { intros j. change (sess_at c (set_ar ?x i (Some k)) j) with (sess_at c x j). rewrite sess_at_set by exact L. reflexivity. }
  split; [cbn [set_ar n_sess]; rewrite length_set_sess; exact M0|]. split; [|split; [|split]].
  - intros i' j. rewrite A, S. destruct (Nat.eqb_spec i' i) as [->|D].
    + intros Q. injection Q as <-. rewrite Nat.eqb_refl. cbn. auto.
    + intros Q. destruct (M1 i' j Q) as (X1 & X2 & X3 & X4). destruct (Nat.eqb_spec j k) as [->|JK]; [congruence|auto].
  - intros j i'. rewrite A, S. destruct (Nat.eqb_spec j k) as [->|JK].
    + cbn. intros _ _ Q. injection Q as <-. rewrite FM, Nat.eqb_refl. reflexivity.
    + intros U1 K1 Q. specialize (M2 j i' U1 K1 Q). destruct (Nat.eqb_spec i' i) as [->|D]; [|exact M2]. destruct (s_from_me (sess_at c st j)); [discriminate|congruence].
  - intros j. rewrite S. destruct (Nat.eqb_spec j k) as [->|JK]; [cbn; apply M3|apply M3].
  - intros j D. rewrite S. destruct (Nat.eqb_spec j k) as [->|JK]; [congruence|apply M4; exact D].
Qed.

(** * Requests *)
Lemma kill_if_mid : forall c b st k rel, mid c st k rel -> (k < length (n_sess st))%nat -> (b = true -> forall i, ar_at st i <> Some k) -> s_kill (sess_at c st k) = false -> rel = false ->
  mid c (kill_if c b k st) k false.
Proof.
  intros c b st k rel M L NB K ->. unfold kill_if. rewrite K. cbn [orb]. destruct b.
  - apply (mid_mark c st k false); [exact M|exact L|apply NB; reflexivity|reflexivity].
  - apply (mid_calm c st); [exact M|]. apply calm_set; [exact L|]. split; [reflexivity|]. split; [reflexivity|]. split; [reflexivity|]. split; [reflexivity|]. cbn. symmetry. exact K.
Qed.

Definition fair_in (h : rpch) (o : hres) (s : sess) : Prop :=
  s_from_me s = false /\ (h_opnum h = 1 -> h_interface h = uuid_io_device) /\
  forall i, s_ar s = Some i -> h_interface h = uuid_io_device /\ h_opnum h <> 0 /\ h_opnum h <> 5 /\ o_effect o <> EKill /\ (h_opnum h = 1 -> o_effect o = ERelease i /\ s_err s = false).

Lemma handle_mid : forall c o k h r st, (k < length (n_sess st))%nat -> mid c st k (h_opnum h =? 1) -> s_used (sess_at c st k) = true -> s_kill (sess_at c st k) = false ->
  (h_opnum h = 1 -> s_release (sess_at c st k) = true) -> fair_in h o (sess_at c st k) -> mid c (fst (fst (handle c o k h r st))) k false.
Proof.
  intros c o k h r st L M U K RL (FM & FI & FA). unfold handle. destruct (uuid_eqb (h_interface h) uuid_io_device) eqn:HI.
  2:{ assert (OP : h_opnum h =? 1 = false).
      { destruct (Z.eqb_spec (h_opnum h) 1) as [O|O]; [|reflexivity]. rewrite (FI O), (proj2 (uuid_eqb_eq uuid_io_device uuid_io_device) eq_refl) in HI. discriminate HI. }
      rewrite OP in M.
      assert (AN : s_ar (sess_at c st k) = None).
      { destruct (s_ar (sess_at c st k)) as [i|] eqn:AR; [|reflexivity]. destruct (FA i eq_refl) as [X _]. rewrite X, (proj2 (uuid_eqb_eq uuid_io_device uuid_io_device) eq_refl) in HI. discriminate HI. }
      destruct (uuid_eqb (h_interface h) uuid_epmap); [|exact M]. cbn [fst]. cbn zeta.
      match goal with |- mid c (set_sess st k ?s) k false => set (s3 := s) end.
      assert (S3 : s_used s3 = s_used (sess_at c st k) /\ s_ar s3 = s_ar (sess_at c st k) /\ s_from_me s3 = s_from_me (sess_at c st k) /\ s_release s3 = s_release (sess_at c st k)).
      { unfold s3. repeat match goal with |- context [if ?b then _ else _] => destruct b end; repeat split. }
      clearbody s3. destruct (s_kill s3) eqn:K3.
      - apply (mid_mark c st k false); [exact M|exact L|apply (no_ar c st k false M); auto|exact K3].
      - apply (mid_calm c st); [exact M|]. apply calm_set; [exact L|]. destruct S3 as (A1 & A2 & A3 & A4). split; [exact A1|]. split; [exact A2|]. split; [exact A3|]. split; [exact A4|congruence]. }
  unfold rpc_request. destruct (Z.eqb_spec (h_opnum h) op_connect) as [O|O0].
  { rewrite O in M. cbn [Z.eqb op_connect] in M.
    assert (AN : s_ar (sess_at c st k) = None).
    { destruct (s_ar (sess_at c st k)) as [i|] eqn:AR; [|reflexivity]. destruct (FA i eq_refl) as (_ & X & _). exfalso. apply X. exact O. }
    assert (NA : forall i, ar_at st i <> Some k) by (apply (no_ar c st k false M); auto).
    assert (H : mid c (fst (do_connect c o k (s_err (sess_at c st k)) st)) k false).
    { assert (CF : mid c (connect_fails c k st) k false) by (apply (mid_mark c st k false); [exact M|exact L|exact NA|reflexivity]).
      unfold do_connect. destruct (s_err _); [exact CF|]. destruct (o_effect o) as [| |[]|i|i]; try exact CF.
      - destruct (free_ar (n_ar st) 0) as [i|] eqn:F; [|exact CF]. cbn [fst]. apply connect_mid; assumption.
      - destruct (ar_at st i) as [j|] eqn:AI; [|exact CF]. assert (JK : Nat.eqb j k = false) by (apply Nat.eqb_neq; intros ->; exact (NA i AI)). rewrite JK.
        apply abort_mid; [|intros X; discriminate X]. apply (mid_mark c st k false); [exact M|exact L|exact NA|reflexivity]. }
    destruct (do_connect c o k (s_err (sess_at c st k)) st) as [st1 e]. exact H. }
  destruct (Z.eqb_spec (h_opnum h) op_release) as [O|O1].
  { change op_release with 1 in O. rewrite O in M. cbn [Z.eqb Pos.eqb] in M. specialize (RL O).
    assert (H : mid c (fst (do_release c o k (s_err (sess_at c st k)) st)) k false).
    { unfold do_release. destruct (s_ar (sess_at c st k)) as [i|] eqn:AR.
      - destruct (FA i eq_refl) as (_ & _ & _ & _ & X). destruct (X O) as [X1 X2]. rewrite X1, X2.
        assert (AI : ar_at st i = Some k). { destruct M as (_ & _ & M2 & _). specialize (M2 k i U K AR). rewrite FM in M2. exact M2. }
        pose proof (fun s => abort_release_mid c i st k s M L AI RL) as H. destruct (abort c i st) as [st1 e]. cbn [fst] in *. apply H. reflexivity.
      - assert (NA : forall i, ar_at st i <> Some k) by (apply (no_ar c st k true M); auto).
        assert (H : mid c (fst (if s_err (sess_at c st k) then (st, []) else match o_effect o with ERelease i => abort c i st | _ => (st, []) end)) k true /\
          (forall i, ar_at (fst (if s_err (sess_at c st k) then (st, []) else match o_effect o with ERelease i => abort c i st | _ => (st, []) end)) i <> Some k) /\
          length (n_sess (fst (if s_err (sess_at c st k) then (st, []) else match o_effect o with ERelease i => abort c i st | _ => (st, []) end))) = length (n_sess st)).
        { destruct (s_err _); [auto|]. destruct (o_effect o) as [| |b|i|i]; auto. split; [apply abort_mid; [exact M|intros _; apply NA]|].
          pose proof (abort_sessions c i st) as (LA & NR & _). split; [|exact LA]. intros i'. unfold ar_at. rewrite NR. destruct (Nat.eq_dec i' i) as [->|D].
          - intros Q. destruct (Nat.lt_ge_cases i (length (n_ar st))) as [LI|LI]; [rewrite put_nth_get, Nat.eqb_refl in Q by exact LI; discriminate Q|].
            apply (NA i). unfold ar_at. rewrite <- Q. clear -LI. revert i LI. induction (n_ar st) as [|x m IH]; intros i LI; [reflexivity|]. destruct i; cbn in *; [lia|]. apply IH. lia.
          - rewrite put_nth_other by exact D. apply NA. }
        destruct (if s_err (sess_at c st k) then (st, []) else match o_effect o with ERelease i => abort c i st | _ => (st, []) end) as [st1 e]. cbn [fst] in *. destruct H as (H1 & H2 & H3).
        apply (mid_mark c st1 k true); [exact H1|lia|exact H2|reflexivity]. }
    destruct (do_release c o k (s_err (sess_at c st k)) st) as [st1 e]. exact H. }
  assert (OP : h_opnum h =? 1 = false) by (apply Z.eqb_neq; exact O1). rewrite OP in M.
  assert (EK : is_ekill (o_effect o) = true -> forall i, ar_at st i <> Some k).
  { intros X. apply (no_ar c st k false M). left. destruct (s_ar (sess_at c st k)) as [i|] eqn:AR; [|reflexivity]. destruct (FA i eq_refl) as (_ & _ & _ & Y & _). destruct (o_effect o); congruence || discriminate X. }
  destruct (Z.eqb_spec (h_opnum h) op_read) as [O|_].
  { cbn [fst]. apply (kill_if_mid c _ st k false); [exact M|exact L| |exact K|reflexivity]. intros X. destruct (s_ar (sess_at c st k)) as [i|] eqn:AR.
    - rewrite orb_false_r in X. apply andb_prop in X. apply EK, X.
    - apply (no_ar c st k false M). auto. }
  destruct (Z.eqb_spec (h_opnum h) op_write) as [O|_].
  { cbn [fst]. apply (kill_if_mid c _ st k false); [exact M|exact L|exact EK|exact K|reflexivity]. }
  destruct (Z.eqb_spec (h_opnum h) op_control) as [O|_].
  { destruct (o_parsed o); [|exact M]. destruct (_ =? h_seq h); [exact M|]. cbn [fst].
    pose proof (kill_if_mid c _ st k false M L EK K eq_refl) as H. set (st1 := kill_if c (is_ekill (o_effect o)) k st) in *.
    assert (L1 : (k < length (n_sess st1))%nat) by (unfold st1, kill_if; rewrite length_set_sess; exact L). clearbody st1.
    apply (mid_calm c st1); [exact H|]. apply calm_set; [exact L1|]. repeat split. }
  destruct (Z.eqb_spec (h_opnum h) op_read_implicit) as [O|_]; [|exact M].
  cbn [fst]. apply (kill_if_mid c _ st k false); [exact M|exact L| |exact K|reflexivity]. intros _. apply (no_ar c st k false M). left.
  destruct (s_ar (sess_at c st k)) as [i|] eqn:AR; [|reflexivity]. destruct (FA i eq_refl) as (_ & _ & Y & _). exfalso. apply Y. exact O.
Qed.

Lemma send_calm : forall c o k st st' e, (k < length (n_sess st))%nat -> 0 < s_counter (sess_at c st k) -> send_with_timeout c o k st = Ok (st', e) -> calm c st st'.
Proof.
  intros c o k st st' e L CN E. unfold send_with_timeout in E. destruct (s_socket (sess_at c st k) <? 0); [apply ok_inv in E; destruct E as [<- _]; apply calm_refl|].
  destruct (Z.ltb_spec 0 (s_counter (sess_at c st k))); [|lia]. cbn zeta in E. destruct (send_once o k _) as [[ok e0]| |]; try discriminate. cbn [obind] in E. apply ok_inv in E. destruct E as [<- _].
  apply calm_set; [exact L|]. repeat split.
Qed.
Lemma request_send_calm : forall c o k h m a b be st st' e, (k < length (n_sess st))%nat -> request_send c o k h m a b be st = Ok (st', e) -> calm c st st'.
Proof.
  intros c o k h m a b be st st' e L E. unfold request_send in E. cbn zeta in E.
  destruct (s_out_len (sess_at c st k) <? max_payload); cbn [obind] in E.
  - destruct (put_len be _ _ _ b) as [b3| |]; try discriminate. cbn [obind] in E.
    destruct (send_once o k _) as [[ok e0]| |]; try discriminate. cbn [obind] in E. apply ok_inv in E. destruct E as [<- _]. apply calm_set; [exact L|]. repeat split.
  - destruct (put_header _ _ m 0) as [[[b0 start] lp]| |]; try discriminate. cbn [obind] in E.
    destruct (put_len be _ _ _ lp) as [b3| |]; try discriminate. cbn [obind] in E.
    apply send_calm in E; [|rewrite length_set_sess; exact L|rewrite sess_at_set_same by exact L; reflexivity].
    eapply calm_trans; [|exact E]. apply calm_set; [exact L|]. repeat split.
Qed.
Lemma next_fragment_calm : forall c o k h r st st' e, (k < length (n_sess st))%nat -> next_fragment c o k h r st = Ok (st', e) -> calm c st st'.
Proof.
  intros c o k h r st st' e L E. unfold next_fragment in E. cbn zeta in E. destruct (_ <? s_out_len _).
  - repeat match type of E with
    | (do x <- ?a; _) = _ => let F := fresh in destruct a as [[[? ?] ?]| |] eqn:F; try discriminate; cbn [obind] in E
    | (do x <- ?a; _) = _ => let F := fresh in destruct a as [?| |] eqn:F; try discriminate; cbn [obind] in E
    end.
    apply send_calm in E; [|rewrite length_set_sess; exact L|rewrite sess_at_set_same by exact L; reflexivity].
    eapply calm_trans; [|exact E]. apply calm_set; [exact L|]. repeat split.
  - apply ok_inv in E. destruct E as [<- _]. apply calm_set; [exact L|]. repeat split.
Qed.

Lemma start_mid : forall c o k h m be st st1 a b, (k < length (n_sess st))%nat -> inv c st -> request_start c o k h m be st = Ok (st1, a, b) ->
  mid c st1 k (h_opnum h =? 1) /\ (h_opnum h = 1 -> s_release (sess_at c st1 k) = true) /\
  s_used (sess_at c st1 k) = s_used (sess_at c st k) /\ s_kill (sess_at c st1 k) = s_kill (sess_at c st k) /\ s_ar (sess_at c st1 k) = s_ar (sess_at c st k) /\
  s_from_me (sess_at c st1 k) = s_from_me (sess_at c st k) /\ s_err (sess_at c st1 k) = s_err (sess_at c st k).
Proof.
  intros c o k h m be st st1 a b L I E. unfold request_start in E. destruct (put_header _ _ m 0) as [[[b0 start] lp]| |]; try discriminate. cbn [obind] in E.
  destruct (poke b0 start _) as [b1| |]; try discriminate. cbn [obind] in E. injection E as <- _ _. change op_release with 1.
  rewrite sess_at_set_same by exact L. destruct (Z.eqb_spec (h_opnum h) 1) as [O|O].
  2:{ split; [|split; [congruence|repeat split]]. apply (mid_calm c st); [apply inv_mid; exact I|]. apply calm_set; [exact L|]. repeat split. }
  split; [|split; [reflexivity|repeat split]].
  match goal with |- mid c (set_sess st k ?s) k true => set (s1 := s) end.
  assert (S1 : s_used s1 = s_used (sess_at c st k) /\ s_ar s1 = s_ar (sess_at c st k) /\ s_from_me s1 = s_from_me (sess_at c st k) /\ s_kill s1 = s_kill (sess_at c st k)) by repeat split.
  clearbody s1. destruct S1 as (A1 & A2 & A3 & A4). destruct (inv_mid c st k I) as (M0 & M1 & M2 & M3 & M4).
  assert (SA : forall j, sess_at c (set_sess st k s1) j = (if Nat.eqb j k then s1 else sess_at c st j)) by (intros j; apply sess_at_set; exact L).
  split; [rewrite length_set_sess; exact M0|]. split; [|split; [|split]].
  - intros i j Q. specialize (M1 i j Q). rewrite SA. destruct (Nat.eqb_spec j k) as [->|]; [rewrite A1, A2, A3, A4|]; exact M1.
  - intros j i. rewrite SA. destruct (Nat.eqb_spec j k) as [->|]; [rewrite A1, A2, A3, A4|]; apply M2.
  - intros j U K D. destruct (Nat.eq_dec j k) as [EJ|JK]; [discriminate (D EJ)|]. rewrite sess_at_set_other in U, K by exact JK. rewrite sess_at_set_other by exact JK. apply M3; [exact U|exact K|congruence].
  - intros j D. rewrite SA. destruct (Nat.eqb_spec j k) as [->|]; [congruence|]. apply M4. exact D.
Qed.

Lemma answer_request_mid : forall c o k h r st st' e, (k < length (n_sess st))%nat -> inv c st -> s_used (sess_at c st k) = true -> fair_in h o (sess_at c st k) ->
  answer_request c o k h r st = Ok (st', e) -> mid c st' k false.
Proof.
  intros c o k h r st st' e L I U F E. unfold answer_request in E.
  destruct (request_limit c h r) as [[[m r1] be]| |]; try discriminate. cbn [obind] in E.
  destruct (request_start c o k h m be st) as [[[st1 start] lpos]| |] eqn:E1; try discriminate. cbn [obind] in E.
  pose proof (request_start_local _ _ _ _ _ _ _ _ _ _ E1) as [[L1 _] _].
  destruct (start_mid c o k h m be st st1 start lpos L I E1) as (S1 & S2 & S3 & S4 & S5 & S6 & S7).
  assert (K : s_kill (sess_at c st1 k) = false) by (rewrite S4; apply I; exact U).
  assert (F1 : fair_in h o (sess_at c st1 k)) by (unfold fair_in in *; rewrite S5, S6, S7; exact F).
  pose proof (handle_mid c o k h (set_be r1 be) st1 ltac:(lia) S1 ltac:(congruence) K S2 F1) as H2. pose proof (handle_others c o k h (set_be r1 be) st1) as [L2 _].
  destruct (handle c o k h (set_be r1 be) st1) as [[st2 e2] prm]. cbn [fst snd] in *.
  destruct (request_send c o k h m start lpos be st2) as [[st3 e3]| |] eqn:E3; try discriminate. cbn [obind] in E. apply ok_inv in E. destruct E as [<- _].
  apply (mid_calm c st2); [exact H2|]. refine (request_send_calm _ _ _ _ _ _ _ _ _ _ _ _ E3). lia.
Qed.

(** * Datagrams *)
Lemma cancel_mid : forall c k st, (k < length (n_sess st))%nat -> inv c st -> mid c (fst (cancel c k st)) k false.
Proof.
  intros c k st L I. unfold cancel.
  assert (H : mid c (fst (match s_ar (sess_at c st k) with Some i => abort c i st | None => (st, []) end)) k false /\
    length (n_sess (fst (match s_ar (sess_at c st k) with Some i => abort c i st | None => (st, []) end))) = length (n_sess st) /\
    forall i, ar_at (fst (match s_ar (sess_at c st k) with Some i => abort c i st | None => (st, []) end)) i <> Some k).
  { pose proof (inv_mid c st k I) as M. destruct (s_ar (sess_at c st k)) as [i|] eqn:AR.
    2:{ split; [exact M|]. split; [reflexivity|]. apply (no_ar c st k false M). auto. }
    pose proof (abort_mid c i st k false M ltac:(intros X; discriminate X)) as M2. split; [exact M2|]. pose proof (abort_sessions c i st) as (LA & NR & S1). split; [exact LA|].
    destruct (s_used (sess_at c st k)) eqn:U.
    - destruct (s_from_me (sess_at c st k)) eqn:FM.
      + apply (no_ar c _ k false M2). destruct (S1 k) as [X|[X _]]; rewrite X; [right; left; exact FM|right; right; left; reflexivity].
      + apply (no_ar c _ k false M2). right. right. left. destruct M as (M0 & M1 & MM & M3 & _). assert (KK : s_kill (sess_at c st k) = false) by (apply I; exact U). specialize (MM k i U KK AR). rewrite FM in MM.
        destruct (abort_frees c i st M0 ltac:(congruence)) as (_ & F1 & _). apply F1; [exact MM|]. apply M3; auto.
    - apply (no_ar c _ k false M2). right. right. left. destruct (S1 k) as [X|[X _]]; rewrite X; [exact U|reflexivity]. }
  destruct (match s_ar (sess_at c st k) with Some i => abort c i st | None => (st, []) end) as [st1 e]. cbn [fst] in *. destruct H as (H1 & H2 & H3).
  apply (mid_mark c st1 k false); [exact H1|lia|exact H3|reflexivity].
Qed.

Lemma act_mid : forall c o k fresh h r st st' e, (k < length (n_sess st))%nat -> inv c st -> s_used (sess_at c st k) = true ->
  (fresh = true -> s_ar (sess_at c st k) = None) -> (h_ptype h = 0 -> fair_in h o (sess_at c st k)) ->
  (h_ptype h = 2 -> s_ar (sess_at c st k) = None \/ s_from_me (sess_at c st k) = true) ->
  act c o k fresh h r st = Ok (st', e) -> mid c st' k false.
Proof.
  intros c o k fresh h r st st' e L I U FR F0 F2 E. unfold act in E. cbn zeta in E.
  assert (K : s_kill (sess_at c st k) = false) by (apply I; exact U).
  set (cl := set_sess st k (with_out (sess_at c st k) (s_out (sess_at c st k)) 0 0 0 0)) in *.
  assert (CC : calm c st cl) by (apply calm_set; [exact L|]; repeat split).
  assert (LC : length (n_sess cl) = length (n_sess st)) by apply length_set_sess.
  assert (SC : sess_at c cl k = with_out (sess_at c st k) (s_out (sess_at c st k)) 0 0 0 0) by (apply sess_at_set_same; exact L). clearbody cl.
  pose proof (inv_calm _ _ _ I CC) as IC. pose proof (inv_mid c cl k IC) as MC. pose proof (inv_mid c st k I) as M.
  destruct (h_ptype h =? pt_ping).
  { destruct (answer_ping o k h _) as [e0| |]; try discriminate. cbn [obind] in E. apply ok_inv in E. destruct E as [<- _]. destruct fresh.
    - apply (mid_mark c cl k false); [exact MC|lia| |reflexivity]. apply (no_ar c cl k false MC). left. rewrite SC. apply FR. reflexivity.
    - apply (mid_calm c cl); [exact MC|]. apply calm_set; [lia|]. rewrite SC. split; [reflexivity|]. split; [reflexivity|]. split; [reflexivity|]. split; [reflexivity|]. cbn. symmetry. exact K. }
  destruct (Z.eqb_spec (h_ptype h) pt_request) as [PT|PT].
  { apply (answer_request_mid c o k h r cl st' e); [lia|exact IC|rewrite SC; exact U|rewrite SC; exact (F0 PT)|exact E]. }
  destruct (h_ptype h =? pt_frag_ack); [apply (mid_calm c st); [exact M|exact (next_fragment_calm _ _ _ _ _ _ _ _ L E)]|].
  destruct (Z.eqb_spec (h_ptype h) pt_response) as [P2|P2].
  { assert (NA : s_ar (sess_at c st k) = None \/ s_from_me (sess_at c st k) = true -> forall i, ar_at st i <> Some k) by (intros H; apply (no_ar c st k false M); destruct H; auto).
    unfold response in E. destruct fresh.
    - apply ok_inv in E. destruct E as [<- _]. apply (kill_if_mid c true st k false); [exact M|exact L|intros _; apply NA; left; apply FR; reflexivity|exact K|reflexivity].
    - destruct (get_ndr r) as [[nd r1]| |]; try discriminate. cbn [obind] in E. destruct (h_opnum h =? op_control).
      + destruct (s_ar (sess_at c st k)) as [i|] eqn:AR; [|discriminate E]. apply ok_inv in E. destruct E as [<- _].
        apply (kill_if_mid c _ st k false); [exact M|exact L|intros _; apply NA, F2; exact P2|exact K|reflexivity].
      + apply ok_inv in E. destruct E as [<- _]. exact M. }
  destruct (_ || _).
  { injection E as E. pose proof (cancel_mid c k st L I) as H. rewrite E in H. exact H. }
  apply ok_inv in E. destruct E as [<- _]. exact M.
Qed.

Lemma collect_five : forall c ip port h frame r s s' r', collect c ip port h frame r s = Ok (s', r') -> s_kill s = false -> same5 s s' /\ (h_frag h = 0 -> s_err s' = s_err s).
Proof.
  intros c ip port h frame r s s' r' E K. unfold collect in E. cbn zeta in E.
  destruct (Z.eqb_spec (h_frag h) 0) as [F|F]; [apply ok_inv in E; destruct E as [<- _]; split; [|reflexivity]; split; [reflexivity|]; split; [reflexivity|]; split; [reflexivity|]; split; [reflexivity|]; cbn; symmetry; exact K|].
  split; [|contradiction].
  assert (H : same5 s (if h_fragnmb h =? 0 then begin_message ip port h s else if Bool.eqb (s_be s) (h_be h) then s else with_err s true)).
  { destruct (h_fragnmb h =? 0); [split; [reflexivity|]; split; [reflexivity|]; split; [reflexivity|]; split; [reflexivity|]; cbn; symmetry; exact K|]. destruct (Bool.eqb _ _); repeat split. }
  revert E H. generalize (if h_fragnmb h =? 0 then begin_message ip port h s else if Bool.eqb (s_be s) (h_be h) then s else with_err s true).
  intros s1 E H. destruct (negb _); [apply ok_inv in E; destruct E as [<- _]; exact H|]. destruct (_ <? _); [apply ok_inv in E; destruct E as [<- _]; exact H|].
  destruct (slice frame _ _) as [d| |]; try discriminate. cbn [obind] in E.
  destruct (poke (s_in s1) _ d) as [b| |]; try discriminate. cbn [obind] in E. apply ok_inv in E. destruct E as [<- _]. exact H.
Qed.

Lemma session_step_inv_own : forall c o ip port frame h r k fresh st st' e, (k < length (n_sess st))%nat -> inv c st -> s_used (sess_at c st k) = true ->
  (fresh = true -> s_ar (sess_at c st k) = None) -> (h_ptype h = 0 -> fair_in h o (with_err (sess_at c st k) (negb (h_frag h =? 0)))) ->
  (h_ptype h = 2 -> s_ar (sess_at c st k) = None \/ s_from_me (sess_at c st k) = true) ->
  session_step c o ip port frame h r k fresh st = Ok (st', e) -> inv c st'.
Proof.
  intros c o ip port frame h r k fresh st st' e L I U FR F0 F2 E. apply session_step_inv in E. destruct E as (s1 & r1 & st3 & e3 & E1 & E2 & E3). cbn zeta in E1, E2.
  assert (K : s_kill (sess_at c st k) = false) by (apply I; exact U).
  set (s2 := with_resend s1 false (s_counter s1)) in *. set (st2 := set_sess st k s2) in *.
  assert (S5 : same5 (sess_at c st k) s2 /\ (h_frag h = 0 -> s_err s2 = false)).
  { destruct (max_body <? h_bodylen h); [destruct E1 as [-> _]; split; [repeat split|reflexivity]|].
    apply collect_five in E1; [|exact K]. destruct E1 as [E1 E1']. split; [exact E1|exact E1']. }
  assert (CC : calm c st st2) by (apply calm_set; [exact L|apply S5]).
  assert (L2 : (k < length (n_sess st2))%nat) by (unfold st2; rewrite length_set_sess; exact L).
  assert (K2 : sess_at c st2 k = s2) by (apply sess_at_set_same; exact L). clearbody s2 st2.
  pose proof (inv_calm _ _ _ I CC) as I2. destruct S5 as [(Q1 & Q2 & Q3 & Q4 & Q5) QE].
  assert (A2 : mid c st3 k false).
  { destruct (max_body <? h_bodylen h).
    - destruct E2 as [_ ->]. destruct fresh.
      + apply (mid_mark c st2 k false); [apply inv_mid; exact I2|exact L2| |reflexivity]. apply (no_ar c st2 k false); [apply inv_mid; exact I2|]. left. rewrite K2, Q2. apply FR. reflexivity.
      + apply (mid_calm c st2); [apply inv_mid; exact I2|]. apply calm_set; [exact L2|]. rewrite K2. split; [reflexivity|]. split; [reflexivity|]. split; [reflexivity|]. split; [reflexivity|]. cbn. congruence.
    - destruct (_ || _).
      + apply (act_mid c o k fresh h r1 st2 st3 e3); [exact L2|exact I2|rewrite K2; congruence|rewrite K2, Q2; exact FR| |rewrite K2, Q2, Q3; exact F2|exact E2].
        intros PT. destruct (F0 PT) as (G1 & G2 & G3). rewrite K2. split; [rewrite Q3; exact G1|]. split; [exact G2|]. intros i AR. rewrite Q2 in AR.
        destruct (G3 i AR) as (H1 & H2 & H3 & H4 & H5). split; [exact H1|]. split; [exact H2|]. split; [exact H3|]. split; [exact H4|]. intros O. destruct (H5 O) as [H6 H7]. split; [exact H6|].
        apply QE. cbn [s_err with_err] in H7. apply negb_false_iff in H7. apply Z.eqb_eq. exact H7.
      + destruct (h_nofack h =? 0); destruct E2 as [_ ->]; apply inv_mid; exact I2. }
  destruct (s_kill (sess_at c st3 k)) eqn:SK; destruct E3 as [-> _]; [|apply (mid_inv c st3 k); [exact A2|intros _; exact SK]].
  unfold release. destruct (s_used (sess_at c st3 k)) eqn:U3; cbn [fst].
  - assert (L3 : (k < length (n_sess st3))%nat) by exact (used_lt c st3 k U3). destruct A2 as (M0 & M1 & M2 & M3 & M4).
    assert (SA : forall j, sess_at c (set_sess st3 k (blank c)) j = (if Nat.eqb j k then blank c else sess_at c st3 j)) by (intros j; apply sess_at_set; exact L3).
    apply (mid_inv c _ k); [|rewrite SA, Nat.eqb_refl; intros X; discriminate X].
    split; [rewrite length_set_sess; exact M0|]. split; [|split; [|split]].
    + intros i j Q. specialize (M1 i j Q). rewrite SA. destruct (Nat.eqb_spec j k) as [->|]; [destruct M1 as (_ & _ & _ & X); congruence|exact M1].
    + intros j i. rewrite SA. destruct (Nat.eqb_spec j k) as [->|]; [intros X; discriminate X|apply M2].
    + intros j. rewrite SA. destruct (Nat.eqb_spec j k) as [->|]; [intros X; discriminate X|apply M3].
    + intros j D. rewrite SA. destruct (Nat.eqb_spec j k) as [->|]; [congruence|]. apply M4. exact D.
  - apply (mid_inv c st3 k); [exact A2|intros X; congruence].
Qed.

(** * Steps *)
Lemma new_inv : forall c st k s, inv c st -> (k < length (n_sess st))%nat -> s_used (sess_at c st k) = false -> s_kill s = false -> s_release s = false ->
  (s_ar s = None \/ exists i, s_from_me s = true /\ s_ar s = Some i /\ ar_at st i <> None) -> inv c (set_sess st k s).
Proof.
  intros c st k s I L U SK SR SA. destruct (inv_mid c st k I) as (M0 & M1 & M2 & M3 & M4).
  assert (SE : forall j, sess_at c (set_sess st k s) j = (if Nat.eqb j k then s else sess_at c st j)) by (intros j; apply sess_at_set; exact L).
  apply (mid_inv c _ k); [|rewrite SE, Nat.eqb_refl; intros _; exact SK].
  split; [rewrite length_set_sess; exact M0|]. split; [|split; [|split]].
  - intros i j Q. specialize (M1 i j Q). rewrite SE. destruct (Nat.eqb_spec j k) as [->|]; [destruct M1; congruence|exact M1].
  - intros j i. rewrite SE. destruct (Nat.eqb_spec j k) as [->|]; [|apply M2]. intros _ _ Q. destruct SA as [SA|(i' & F & SA & A)]; [congruence|]. rewrite F. replace i with i' by congruence. exact A.
  - intros j. rewrite SE. destruct (Nat.eqb_spec j k) as [->|]; [intros _ _ _; exact SR|apply M3].
  - intros j D. rewrite SE. destruct (Nat.eqb_spec j k) as [->|]; [congruence|]. apply M4. exact D.
Qed.

Lemma ccontrol_form : forall c o i sock obj st st' e, ccontrol c o i sock obj st = Ok (st', e) ->
  (st' = st /\ e = []) \/
  exists k s1, first_free (n_sess st) 0 = Some k /\ ar_at st i <> None /\ s_from_me s1 = true /\ s_ar s1 = Some i /\ s_counter s1 = 3 /\ s_kill s1 = false /\ s_release s1 = false /\
    send_with_timeout c o k (set_sess st k s1) = Ok (st', e).
Proof.
  intros c o i sock obj st st' e E. unfold ccontrol in E. destruct (ar_at st i) as [j|] eqn:AI; [|injection E as <- <-; auto].
  unfold allocate in E. destruct (first_free (n_sess st) 0) as [k|] eqn:F; [|injection E as <- <-; auto]. right.
  destruct (first_free_spec _ _ _ F) as [A _].
  cbn zeta in E. destruct (put_header _ _ (c_buf c) 0) as [[[b0 start] lp0]| |]; try discriminate. cbn [obind] in E.
  destruct (poke b0 start _) as [b1| |]; try discriminate. cbn [obind] in E.
  match type of E with (do x <- ?a; _) = _ => destruct a as [[[b2 send] lp]| |]; try discriminate end. cbn [obind] in E.
  destruct (put_len true _ _ _ lp) as [b3| |]; try discriminate. cbn [obind] in E. rewrite set_sess_twice in E.
  eexists k, _. split; [reflexivity|]. split; [discriminate|]. split; [|split; [|split; [|split; [|split; [|exact E]]]]]; rewrite ?sess_at_set_same by lia; reflexivity.
Qed.

Lemma step_inv : forall c x st st' e, cfg_ok c -> net_ok c st -> inv c st -> fair c st x -> step c x st = Ok (st', e) -> inv c st'.
Proof.
  intros c [x o] st st' e C N I F E. pose proof (inv_mid c st 0 I) as M. destruct x as [ip port frame len old|k|k|i|i sock obj]; cbn [step] in E.
  - unfold datagram in E. destruct (Z.leb_spec len 0) as [L0|L0]; [apply ok_inv in E; destruct E as [<- _]; exact I|].
    destruct (get_dce_rpc_header old old old (mkRd (Some frame) len false POk 0)) as [[h r]| |] eqn:G; try discriminate. cbn [obind] in E.
    unfold fair in F. cbn [fst snd] in F. destruct (F h ltac:(split; [exact L0|exists r; exact G])) as [F1 F2]. clear F.
    rewrite packet_steps in E. destruct (session_for c o ip port h st) as [[[k fresh] st1]|] eqn:SF; [|apply ok_inv in E; destruct E as [<- _]; exact I].
    destruct (session_for_ok _ _ _ _ _ _ _ _ _ C N SF) as (N1 & L1 & _ & O1 & F3 & F4). destruct fresh.
    + destruct (F4 eq_refl) as (U & _ & K1).
      assert (ST : st1 = set_sess st k (with_socket (with_peer (new_session c (o_uuid o)) ip port) (c_pnio c))).
      { unfold session_for in SF. destruct (locate _ _ _); [discriminate SF|]. unfold allocate in SF. destruct (first_free (n_sess st) 0) as [k'|] eqn:FF; [|discriminate SF].
        destruct (first_free_spec _ _ _ FF) as [LF _]. injection SF as -> <-. rewrite sess_at_set_same by lia. rewrite set_sess_twice. reflexivity. }
      assert (L : (k < length (n_sess st))%nat) by (rewrite ST, length_set_sess in L1; exact L1).
      assert (I1 : inv c st1) by (rewrite ST; apply new_inv; [exact I|exact L|exact U|reflexivity|reflexivity|left; reflexivity]).
      refine (session_step_inv_own c o ip port frame h r k true st1 st' e L1 I1 _ _ _ _ E); rewrite K1; [reflexivity|reflexivity| |left; reflexivity].
      intros PT. split; [reflexivity|]. split; [intros O; exact (F1 PT O)|]. intros i Q. discriminate Q.
    + destruct (F3 eq_refl) as (-> & U & UU). apply uuid_eqb_eq in UU. destruct (F2 k U (eq_sym UU)) as [G1 G2].
      refine (session_step_inv_own c o ip port frame h r k false st st' e L1 I U _ _ _ E); [intros X; discriminate X| |].
      * intros PT. assert (FM : s_from_me (sess_at c st k) = false) by (destruct (s_from_me (sess_at c st k)); [exfalso; exact (G1 eq_refl PT)|reflexivity]).
        split; [exact FM|]. split; [intros O; exact (F1 PT O)|]. intros i Q. destruct (G2 i FM Q) as [_ G3]. destruct (G3 PT) as (H1 & H2 & H3 & H4 & H5).
        split; [exact H1|]. split; [exact H2|]. split; [exact H3|]. split; [exact H4|]. intros O. destruct (H5 O) as [H6 H7]. split; [exact H6|]. cbn. rewrite H7. reflexivity.
      * intros PT. destruct (s_from_me (sess_at c st k)) eqn:FM; [right; reflexivity|]. left. destruct (s_ar (sess_at c st k)) as [i|] eqn:AR; [|reflexivity]. destruct (G2 i eq_refl eq_refl) as [X _]. contradiction.
  - destruct (s_resend (sess_at c st k)) eqn:RS; [|apply ok_inv in E; destruct E as [<- _]; exact I].
    assert (L : (k < length (n_sess st))%nat).
    { destruct (Nat.lt_ge_cases k (length (n_sess st))) as [L|L]; [exact L|]. unfold sess_at in RS. rewrite nth_overflow in RS by exact L. discriminate RS. }
    unfold send_with_timeout in E. destruct (s_socket (sess_at c st k) <? 0); [apply ok_inv in E; destruct E as [<- _]; exact I|].
    destruct (0 <? s_counter (sess_at c st k)).
    + cbn zeta in E. destruct (send_once o k _) as [[ok e0]| |]; try discriminate. cbn [obind] in E. apply ok_inv in E. destruct E as [<- _].
      apply (inv_calm c st); [exact I|]. apply calm_set; [exact L|]. repeat split.
    + cbn zeta in E. destruct (s_ar (sess_at c st k)) as [i|]; [|discriminate].
      set (st1 := set_sess st k (with_resend (sess_at c st k) false (s_counter (sess_at c st k)))) in *.
      assert (C1 : calm c st st1) by (apply calm_set; [exact L|]; repeat split). assert (L1 : length (n_sess st1) = length (n_sess st)) by apply length_set_sess. clearbody st1.
      pose proof (inv_calm _ _ _ I C1) as I1. pose proof (abort_mid c i st1 0 false (inv_mid c st1 0 I1) ltac:(intros X; discriminate X)) as M2.
      pose proof (abort_sessions c i st1) as (LA & _ & S1). destruct (abort c i st1) as [st2 e2]. cbn [fst] in *.
      assert (I2 : inv c st2) by (apply (mid_inv c st2 0); [exact M2|]; destruct (S1 0%nat) as [X|[X _]]; rewrite X; [apply I1|intros Q; discriminate Q]).
      destruct (_ && _); apply ok_inv in E; destruct E as [<- _]; [|exact I2]. apply (inv_calm c st2); [exact I2|]. apply calm_set; [lia|]. repeat split.
  - destruct (s_epmtimer (sess_at c st k)); [|apply ok_inv in E; destruct E as [<- _]; exact I]. injection E as E. unfold release in E. unfold fair in F. cbn [fst] in F.
    destruct (s_used (sess_at c st k)) eqn:U; [|injection E as <- _; exact I]. injection E as <- _.
    pose proof (used_lt c st k U) as L. destruct (inv_mid c st k I) as (M0 & M1 & M2 & M3 & M4).
    assert (SE : forall j, sess_at c (set_sess st k (blank c)) j = (if Nat.eqb j k then blank c else sess_at c st j)) by (intros j; apply sess_at_set; exact L).
    apply (mid_inv c _ k); [|rewrite SE, Nat.eqb_refl; intros X; discriminate X].
    split; [rewrite length_set_sess; exact M0|]. split; [|split; [|split]].
    + intros i j Q. specialize (M1 i j Q). rewrite SE. destruct (Nat.eqb_spec j k) as [->|]; [destruct M1 as (_ & X & _); congruence|exact M1].
    + intros j i. rewrite SE. destruct (Nat.eqb_spec j k) as [->|]; [intros X; discriminate X|apply M2].
    + intros j. rewrite SE. destruct (Nat.eqb_spec j k) as [->|]; [intros X; discriminate X|apply M3].
    + intros j D. rewrite SE. destruct (Nat.eqb_spec j k) as [->|]; [congruence|]. apply M4. exact D.
  - injection E as E. pose proof (abort_mid c i st 0 false M ltac:(intros X; discriminate X)) as M2. pose proof (abort_sessions c i st) as (_ & _ & S1). rewrite E in M2, S1. cbn [fst] in *.
    apply (mid_inv c st' 0); [exact M2|]. destruct (S1 0%nat) as [X|[X _]]; rewrite X; [apply I|intros Q; discriminate Q].
  - destruct (ccontrol_form _ _ _ _ _ _ _ _ E) as [[-> _]|(k & s1 & FF & AI & FM & AR & CN & SK & SR & E1)]; [exact I|].
    destruct (first_free_spec _ _ _ FF) as [LF U]. specialize (U (blank c)). rewrite Nat.sub_0_r in U. fold (sess_at c st k) in U.
    assert (I1 : inv c (set_sess st k s1)) by (apply new_inv; [exact I|lia|exact U|exact SK|exact SR|right; exists i; auto]).
    apply (inv_calm _ _ _ I1). refine (send_calm c o k _ _ _ _ _ E1); [rewrite length_set_sess; lia|]. rewrite sess_at_set_same by lia. rewrite CN. reflexivity.
Qed.

(** * Theorems *)

(** As long as the controllers behave well (specified above), each connection refers to a
    session in use that belongs to it, and no session refers to a connection that is not
    its own.  The property for all histories is violated, see below. *)
Theorem C97_own_partial : forall c l st e, cfg_ok c -> Forall input_ok l -> all_fair c l (rpc_init c) -> run c l (rpc_init c) = Ok (st, e) -> own c st.
Proof.
  intros c l st e C V F R. apply inv_own.
  assert (G : forall l s0 e0, net_ok c s0 -> inv c s0 -> Forall input_ok l -> all_fair c l s0 -> run c l s0 = Ok (st, e0) -> inv c st).
  { clear l e V F R. intros l. induction l as [|x l IH]; intros s0 e0 N I V F R; cbn [run all_fair] in *.
    - apply ok_inv in R. destruct R as [<- _]. exact I.
    - destruct (step c x s0) as [[s1 e1]| |] eqn:E; try discriminate. cbn [obind] in R.
      destruct (run c l s1) as [[s2 e2]| |] eqn:E2; try discriminate. cbn [obind] in R. apply ok_inv in R. destruct R as [<- _].
      destruct F as [F1 F2]. inversion V; subst. apply (IH s1 e2); [eapply step_net_ok; eauto|eapply step_inv; eauto|assumption|exact F2|exact E2]. }
  exact (G l (rpc_init c) e (init_ok c C) (init_inv c) V F R).
Qed.
Print Assumptions C97_own_partial.

(** So the application ready request goes to the address of the session of this connection. *)
Theorem C97_ready_partial : forall c l st e i sock obj o st' e', cfg_ok c -> Forall input_ok l -> all_fair c l (rpc_init c) -> run c l (rpc_init c) = Ok (st, e) ->
  step c (IReady i sock obj, o) st = Ok (st', e') -> forall k s ip port b, In (Sent k s ip port b) e' ->
  exists j, ar_at st i = Some j /\ s_used (sess_at c st j) = true /\ s_ar (sess_at c st j) = Some i /\ ip = s_ip (sess_at c st j) /\ port = 34964.
Proof.
  intros c l st e i sock obj o st' e' C V F R E k s ip port b IN. pose proof (C97_own_partial c l st e C V F R) as [O1 _]. cbn [step] in E. unfold ccontrol in E.
  destruct (ar_at st i) as [j|] eqn:AI; [|apply ok_inv in E; destruct E as [_ <-]; destruct IN]. destruct (O1 i j AI) as (U & A & _). exists j. split; [reflexivity|]. split; [exact U|]. split; [exact A|].
  unfold allocate in E. destruct (first_free (n_sess st) 0) as [k'|] eqn:FF; [|apply ok_inv in E; destruct E as [_ <-]; destruct IN].
  destruct (first_free_spec _ _ _ FF) as [LF X]. specialize (X (blank c)). rewrite Nat.sub_0_r in X. fold (sess_at c st k') in X.
  assert (D : j <> k') by (intros ->; congruence). cbn zeta in E. rewrite (sess_at_set_other c st k' (new_session c (o_uuid o)) j D) in E.
  destruct (put_header _ _ (c_buf c) 0) as [[[b0 start] lp0]| |]; try discriminate. cbn [obind] in E.
  destruct (poke b0 start _) as [b1| |]; try discriminate. cbn [obind] in E.
  match type of E with (do x <- ?a; _) = _ => destruct a as [[[b2 send] lp]| |]; try discriminate end. cbn [obind] in E.
  destruct (put_len true _ _ _ lp) as [b3| |]; try discriminate. cbn [obind] in E. rewrite set_sess_twice in E.
  match type of E with send_with_timeout _ _ _ (set_sess st k' ?s1) = _ => set (s1' := s1) in *; assert (S1 : s_ip s1' = s_ip (sess_at c st j) /\ s_port s1' = 34964 /\ s_counter s1' = 3) by (split; [reflexivity|split; reflexivity]) end.
  clearbody s1'. destruct S1 as (S1 & S2 & S3). unfold send_with_timeout in E. rewrite sess_at_set_same in E by lia.
  destruct (s_socket s1' <? 0); [apply ok_inv in E; destruct E as [_ <-]; destruct IN|]. rewrite S3 in E. cbn [Z.ltb Z.compare Z.sub] in E.
  destruct (send_once o k' _) as [[ok e0]| |] eqn:SO; try discriminate. cbn [obind] in E. apply ok_inv in E. destruct E as [_ <-].
  unfold send_once in SO. destruct (slice _ _ _) as [d| |]; try discriminate. cbn [obind] in SO. injection SO as SO. unfold send_buffer in SO. cbn [s_socket with_resend s_ip s_port] in SO.
  destruct d; [injection SO as _ <-; destruct IN|]. destruct (_ || _); [injection SO as _ <-; destruct IN|]. injection SO as _ <-. destruct IN as [IN|[]]. injection IN as _ _ <- <- _. split; assumption.
Qed.
Print Assumptions C97_ready_partial.

(** * Concrete cases *)
Definition header_of (x : input) : option rpch :=
  match x with
  | IDatagram ip port frame len old => if 0 <? len then match get_dce_rpc_header old old old (mkRd (Some frame) len false POk 0) with Ok (h, _) => Some h | _ => None end else None
  | _ => None
  end.
Lemma header_of_ok : forall x h, has_header x h -> header_of x = Some h.
Proof. intros [ip port frame len old| | | |] h H; try contradiction. destruct H as [L [r G]]. unfold header_of. rewrite (proj2 (Z.ltb_lt 0 len) L), G. reflexivity. Qed.
Definition fairb (st : net) (x : input * hres) : bool :=
  match fst x with
  | IDatagram _ _ _ _ _ =>
    match header_of (fst x) with
    | None => true
    | Some h => negb ((h_ptype h =? 0) && (h_opnum h =? 1) && negb (uuid_eqb (h_interface h) uuid_io_device)) &&
        forallb (fun s => negb (s_used s && uuid_eqb (s_uuid s) (h_activity h)) ||
          (negb (s_from_me s && (h_ptype h =? 0)) &&
           match s_ar s with
           | Some i => s_from_me s || (negb (h_ptype h =? 2) && (negb (h_ptype h =? 0) ||
               (uuid_eqb (h_interface h) uuid_io_device && (negb (h_opnum h =? 0) && (negb (h_opnum h =? 5) && (negb (is_ekill (o_effect (snd x))) &&
                 (negb (h_opnum h =? 1) || ((h_frag h =? 0) && match o_effect (snd x) with ERelease i' => Nat.eqb i' i | _ => false end))))))))
           | None => true
           end)) (n_sess st)
    end
  | IEpm k => match s_ar (sess_at small st k) with None => true | _ => false end
  | _ => true
  end.
Lemma fairb_ok : forall st x, fairb st x = true -> fair small st x.
Proof.
  intros st [x o] H. unfold fairb, fair in *. cbn [fst snd] in *. destruct x as [ip port frame len old|k|k|i|i sock obj]; try exact I.
  - intros h HH. rewrite (header_of_ok _ _ HH) in H. apply andb_prop in H. destruct H as [H1 H2]. split.
    + intros P O. rewrite P, O in H1. cbn [Z.eqb Pos.eqb andb] in H1. rewrite negb_involutive in H1. apply uuid_eqb_eq. exact H1.
    + intros k U UU. rewrite forallb_forall in H2. specialize (H2 _ (used_in small st k U)). rewrite U, UU, (proj2 (uuid_eqb_eq (h_activity h) (h_activity h)) eq_refl) in H2. cbn [andb negb orb] in H2.
      apply andb_prop in H2. destruct H2 as [H2 H3]. split.
      * intros FM P. rewrite FM, P in H2. discriminate H2.
      * intros i FM AR. rewrite FM, AR in H3. cbn [orb] in H3. apply andb_prop in H3. destruct H3 as [H3 H4]. split; [intros P; rewrite P in H3; discriminate H3|].
        intros P. rewrite P in H4. cbn [Z.eqb negb orb] in H4. rewrite !andb_true_iff, !negb_true_iff, !Z.eqb_neq in H4. destruct H4 as (G1 & G2 & G3 & G4 & G5).
        split; [apply uuid_eqb_eq; exact G1|]. split; [exact G2|]. split; [exact G3|]. split; [intros Q; rewrite Q in G4; discriminate G4|].
        intros O. rewrite O in G5. cbn [Z.eqb Pos.eqb negb orb] in G5. apply andb_prop in G5. destruct G5 as [G5 G6]. apply Z.eqb_eq in G5. split; [|exact G5].
        destruct (o_effect o); try discriminate G6. apply Nat.eqb_eq in G6. congruence.
  - destruct (s_ar (sess_at small st k)); [discriminate H|reflexivity].
Qed.
Fixpoint all_fairb (l : list (input * hres)) (st : net) (f : net -> bool) : bool :=
  match l with
  | [] => f st
  | x :: t => input_check x && (fairb st x && match step small x st with Ok (st1, _) => all_fairb t st1 f | _ => false end)
  end.
Lemma all_fairb_ok : forall f l st, all_fairb l st f = true -> (forall x, In x l -> o_uuid (snd x) = client 99) ->
  exists st' e, Forall input_ok l /\ all_fair small l st /\ run small l st = Ok (st', e) /\ f st' = true.
Proof.
  intros f l. induction l as [|x l IH]; intros st H U; cbn [all_fairb] in H.
  - exists st, []. split; [constructor|]. split; [exact I|]. split; [reflexivity|exact H].
  - apply andb_prop in H. destruct H as [H0 H]. apply andb_prop in H. destruct H as [H1 H2]. cbn [all_fair run]. destruct (step small x st) as [[st1 e]| |]; [|discriminate H2|discriminate H2].
    destruct (IH st1 H2 (fun y Y => U y (or_intror Y))) as (st' & e' & V & F & R & K). exists st', (e ++ e').
    split; [constructor; [apply input_check_ok; [rewrite (U x (or_introl eq_refl)); exact client_ok|exact H0]|exact V]|].
    split; [split; [apply fairb_ok; exact H1|exact F]|]. cbn [obind]. rewrite R. split; [reflexivity|exact K].
Qed.

Definition connect_by (n : Z) : input * hres := (send_to n (50000 + n) 0 0 0 0 1 0 uuid_io_device ndr_bytes, with_effect (EConnect true)).
Definition read_by (n : Z) : input * hres := (send_to n (50000 + n) 0 0 0 0 2 2 uuid_io_device ndr_bytes, plain).
Definition release_by (n : Z) (i : nat) : input * hres := (send_to n (50000 + n) 0 0 0 0 3 1 uuid_io_device ndr_bytes, with_effect (ERelease i)).
Definition implicit_by (n : Z) : input * hres := (send_to n (50000 + n) 0 0 0 0 2 5 uuid_io_device ndr_bytes, plain).
Definition lookup_by (n op : Z) : input * hres := (send_to n (50000 + n) 0 0 0 0 2 op uuid_epmap ndr_bytes, plain).
Definition cancel_by (n : Z) : input * hres := (send_to n (50000 + n) 8 0 0 0 2 0 uuid_io_device [], plain).
Definition lost (i : nat) : input * hres := (IAbort i, plain).

(** The hypotheses are met by two controllers that connect, read, and of which the first
    releases its connection and connects again. *)
Definition visits : list (input * hres) := [connect_by 1; connect_by 2; read_by 1; read_by 2; release_by 1 0; connect_by 1].
Example C97_example : exists st e, Forall input_ok visits /\ all_fair small visits (rpc_init small) /\ run small visits (rpc_init small) = Ok (st, e) /\
  ar_at st 0 = Some 0%nat /\ ar_at st 1 = Some 1%nat /\ s_ip (sess_at small st 1) = 2.
Proof.
  destruct (all_fairb_ok (fun st => is_some 0 (ar_at st 0) && (is_some 1 (ar_at st 1) && (s_ip (sess_at small st 1) =? 2))) visits (rpc_init small)) as (st & e & V & F & R & K);
    [vm_compute; reflexivity|intros x [<-|[<-|[<-|[<-|[<-|[<-|[]]]]]]]; reflexivity|].
  apply andb_prop in K. destruct K as [K1 K]. apply andb_prop in K. destruct K as [K2 K3].
  exists st, e. split; [exact V|]. split; [exact F|]. split; [exact R|]. split; [apply is_some_eq; exact K1|]. split; [apply is_some_eq; exact K2|apply Z.eqb_eq; exact K3].
Qed.

(** An implicit read in the session of connection 0 releases this session, but not the
    connection.  The session is then given to another controller, which opens connection 1:
    the application ready request of connection 0 is sent to this other controller, and
    the loss of connection 0 takes the session of connection 1 away. *)
Theorem C97_refuted : exists l st st1 e1 st2 e2 s b, cfg_ok small /\ l = [connect_by 1; implicit_by 1; connect_by 2] /\ reached small l st /\
  ar_at st 0 = Some 0%nat /\ ar_at st 1 = Some 0%nat /\ s_ar (sess_at small st 0) = Some 1%nat /\ s_uuid (sess_at small st 0) = client 2 /\
  input_ok ready /\ step small ready st = Ok (st1, e1) /\ e1 = [Sent 1 s 2 34964 b] /\
  input_ok (lost 0) /\ step small (lost 0) st = Ok (st2, e2) /\ ar_at st2 1 = Some 0%nat /\ s_used (sess_at small st2 0) = false.
Proof.
  set (l := [connect_by 1; implicit_by 1; connect_by 2]).
  destruct (checked_ok l (fun st _ => is_some 0 (ar_at st 0) && (is_some 0 (ar_at st 1) && (is_some 1 (s_ar (sess_at small st 0)) && (uuid_eqb (s_uuid (sess_at small st 0)) (client 2) &&
    (stepped_ready st (fun _ e1 => match e1 with [Sent k s ip port b] => Nat.eqb k 1 && ((ip =? 2) && (port =? 34964)) | _ => false end) &&
     stepped (lost 0) st (fun st2 _ => is_some 0 (ar_at st2 1) && negb (s_used (sess_at small st2 0))))))))) as (st & e & RC & R & K);
    [vm_compute; reflexivity|intros x [<-|[<-|[<-|[]]]]; reflexivity|].
  apply andb_prop in K. destruct K as [K0 K]. apply andb_prop in K. destruct K as [K1 K]. apply andb_prop in K. destruct K as [K2 K]. apply andb_prop in K. destruct K as [K3 K]. apply andb_prop in K. destruct K as [K4 K].
  apply stepped_ready_ok in K4. destruct K4 as (st1 & e1 & E1 & K4). apply stepped_ok in K; [|reflexivity]. destruct K as (st2 & e2 & V2 & E2 & K). apply andb_prop in K. destruct K as [K5 K6].
  destruct e1 as [|[k s ip port b| | | | | | | |] [|y e1]]; try discriminate K4. apply andb_prop in K4. destruct K4 as [Q1 Q2]. apply andb_prop in Q2. destruct Q2 as [Q2 Q3].
  apply Nat.eqb_eq in Q1. apply Z.eqb_eq in Q2, Q3. subst k ip port. exists l, st, st1, [Sent 1 s 2 34964 b], st2, e2, s, b.
  split; [unfold cfg_ok; cbn; lia|]. split; [reflexivity|]. split; [exact RC|]. split; [apply is_some_eq; exact K0|]. split; [apply is_some_eq; exact K1|]. split; [apply is_some_eq; exact K2|].
  split; [apply uuid_eqb_eq; exact K3|]. split; [exact ready_ok|]. split; [exact E1|]. split; [reflexivity|]. split; [exact V2|]. split; [exact E2|]. split; [apply is_some_eq; exact K5|apply negb_true_iff; exact K6].
Qed.
Print Assumptions C97_refuted.

(** A second connect in a session: two connections refer to it; when the first one is lost,
    the second one has no session any more. *)
Theorem C97_twice_refuted : exists l st st2 e2, cfg_ok small /\ l = [connect_by 1; connect_by 1] /\ reached small l st /\
  ar_at st 0 = Some 0%nat /\ ar_at st 1 = Some 0%nat /\
  input_ok (lost 0) /\ step small (lost 0) st = Ok (st2, e2) /\ ~ In (Ended 1) e2 /\ ar_at st2 1 = Some 0%nat /\ s_used (sess_at small st2 0) = false.
Proof.
  set (l := [connect_by 1; connect_by 1]).
  destruct (checked_ok l (fun st _ => is_some 0 (ar_at st 0) && (is_some 0 (ar_at st 1) &&
     stepped (lost 0) st (fun st2 e2 => forallb (fun x => match x with Ended i => negb (Nat.eqb i 1) | _ => true end) e2 && (is_some 0 (ar_at st2 1) && negb (s_used (sess_at small st2 0))))))) as (st & e & RC & R & K);
    [vm_compute; reflexivity|intros x [<-|[<-|[]]]; reflexivity|].
  apply andb_prop in K. destruct K as [K0 K]. apply andb_prop in K. destruct K as [K1 K].
  apply stepped_ok in K; [|reflexivity]. destruct K as (st2 & e2 & V2 & E2 & K). apply andb_prop in K. destruct K as [K4 K]. apply andb_prop in K. destruct K as [K5 K6].
  exists l, st, st2, e2. split; [unfold cfg_ok; cbn; lia|]. split; [reflexivity|]. split; [exact RC|]. split; [apply is_some_eq; exact K0|]. split; [apply is_some_eq; exact K1|].
  split; [exact V2|]. split; [exact E2|]. split; [intros X; rewrite forallb_forall in K4; specialize (K4 _ X); discriminate K4|]. split; [apply is_some_eq; exact K5|apply negb_true_iff; exact K6].
Qed.
Print Assumptions C97_twice_refuted.

(** A request to the endpoint mapper with operation 1 marks the session as if a release
    was asked for: it survives the loss of its connection.  When connection 0 is then
    opened by another controller, a cancel of the first one ends it. *)
Theorem C97_cancel_refuted : exists l st st2 e2, cfg_ok small /\ l = [lookup_by 1 1; connect_by 1; lost 0; connect_by 2] /\ reached small l st /\
  ar_at st 0 = Some 1%nat /\ s_uuid (sess_at small st 1) = client 2 /\
  input_ok (cancel_by 1) /\ step small (cancel_by 1) st = Ok (st2, e2) /\ In (Ended 0) e2 /\ s_used (sess_at small st2 1) = false.
Proof.
  set (l := [lookup_by 1 1; connect_by 1; lost 0; connect_by 2]).
  destruct (checked_ok l (fun st _ => is_some 1 (ar_at st 0) && (uuid_eqb (s_uuid (sess_at small st 1)) (client 2) &&
     stepped (cancel_by 1) st (fun st2 e2 => existsb (fun x => match x with Ended i => Nat.eqb i 0 | _ => false end) e2 && negb (s_used (sess_at small st2 1)))))) as (st & e & RC & R & K);
    [vm_compute; reflexivity|intros x [<-|[<-|[<-|[<-|[]]]]]; reflexivity|].
  apply andb_prop in K. destruct K as [K0 K]. apply andb_prop in K. destruct K as [K1 K].
  apply stepped_ok in K; [|reflexivity]. destruct K as (st2 & e2 & V2 & E2 & K). apply andb_prop in K. destruct K as [K4 K5].
  exists l, st, st2, e2. split; [unfold cfg_ok; cbn; lia|]. split; [reflexivity|]. split; [exact RC|]. split; [apply is_some_eq; exact K0|]. split; [apply uuid_eqb_eq; exact K1|].
  split; [exact V2|]. split; [exact E2|]. split; [|apply negb_true_iff; exact K5]. apply existsb_exists in K4. destruct K4 as (x & X & Q). destruct x; try discriminate Q. apply Nat.eqb_eq in Q. subst. exact X.
Qed.
Print Assumptions C97_cancel_refuted.
