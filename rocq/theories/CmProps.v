(** Properties of connection management: C30, C31, C33. *)

From Coq Require Import List Arith Bool ZArith Lia.
From Verif Require Import Base CmModel CmSpec CmLemmas CmAtoms CmSteps CmTrace CmHist.
Import ListNotations.
Set Implicit Arguments.
Open Scope nat_scope.

Definition one_env (x : input) : env := mkEnv false (fun y => y = x).

Lemma step_one : forall m x n, inv m n -> answers_consistently x ->
  path m (one_env x) n (step m x n).
Proof. intros. apply step_path; cbn; auto. discriminate. Qed.

Lemma reach_inv : forall m n, reachable m answers_consistently n ->
  inv m n /\ (forall i, tinv i (n_ars n i) (n_tr n)).
Proof.
  intros m n (xs & F & ->). split; [apply inv_run; auto; apply inv_net0|].
  apply tinv_run; auto; [apply inv_net0|apply tinv_net0].
Qed.

Lemma reach_step : forall m E n x, reachable m E n -> E x -> reachable m E (step m x n).
Proof.
  intros m E n x (xs & F & ->) Ex. exists (xs ++ [x]). split; [apply Forall_app; auto|].
  clear. generalize net0. induction xs as [|y r IH]; cbn; auto.
Qed.

Lemma reach_weaken : forall m (E E' : input -> Prop) n, (forall x, E x -> E' x) ->
  reachable m E n -> reachable m E' n.
Proof. intros m E E' n H (xs & F & ->). exists xs. split; auto. eapply Forall_impl; eauto. Qed.

(** ** States and traces *)
Lemma since_state : forall m n i, inv m n -> tinv i (n_ars n i) (n_tr n) ->
  match since (S i) (n_tr n) with
  | None => n_ars n i = ar0 \/ (a_use (n_ars n i) = true /\ idle (n_ars n i))
  | Some l => a_use (n_ars n i) = true /\ active (n_ars n i)
  end.
Proof.
  intros m n i I (T1 & T2 & _).
  destruct (v_ar I i) as [Z|(U & Lt & Ar & St)].
  - rewrite T1; auto. rewrite Z. discriminate.
  - destruct St as [Id|Ac].
    + rewrite T1; auto. assert (a_su (n_ars n i) = SuIdle) by apply Id. congruence.
    + destruct (T2 (proj1 Ac)) as (l & E & _). rewrite E. auto.
Qed.

Lemma supervised : forall m n i, inv m n -> a_sm (n_ars n i) = SmRun ->
  exists t, supervisions i n = [t] /\ In t (n_timers n) /\ t_kind t = TSm /\ t_ar t = i /\
            t_delay t = u32 (a_factor (n_ars n i) * 100 * 1000).
Proof.
  intros m n i I Sm. destruct (v_run I i Sm) as (t & Ht & K & E).
  exists t. assert (Dl : t_delay t = u32 (a_factor (n_ars n i) * 100 * 1000)).
  { destruct (v_sm I t Ht K) as (_ & _ & _ & D). now rewrite E in D. }
  split; [|auto]. unfold supervisions.
  assert (Un : forall u, In u (n_timers n) ->
     (match t_kind u with TSm => t_ar u =? i | TIo => false end) = true -> u = t).
  { intros u Hu Q. destruct (t_kind u) eqn:Ku; [|discriminate]. apply Nat.eqb_eq in Q.
    destruct (v_sm I u Hu Ku) as (_ & _ & H1 & _). destruct (v_sm I t Ht K) as (_ & _ & H2 & _).
    eapply timer_unique; [apply (v_nodup I)|auto|auto|]. rewrite Q in H1. rewrite E in H2. congruence. }
  assert (Sel : (match t_kind t with TSm => t_ar t =? i | TIo => false end) = true).
  { rewrite K, E. apply Nat.eqb_refl. }
  pose proof (v_nodup I) as N. revert Ht Un N. clear - Sel.
  generalize (n_timers n). induction l as [|y r IH]; cbn; intros Ht Un N; [tauto|].
  inversion N; subst. destruct Ht as [->|Ht].
  - rewrite Sel. f_equal.
    destruct (filter _ r) as [|z q] eqn:F; auto. exfalso.
    assert (Hz : In z (z :: q)) by (now left). rewrite <- F in Hz. apply filter_In in Hz.
    destruct Hz as [Hz Q]. assert (z = t) by (apply Un; auto). subst z.
    apply H1. now apply in_map.
  - destruct (match t_kind y with TSm => t_ar y =? i | TIo => false end) eqn:Q.
    + assert (y = t) by (apply Un; auto). subst y. exfalso. apply H1. now apply in_map.
    + apply IH; auto.
Qed.

Lemma unsupervised : forall m n i, inv m n -> a_sm (n_ars n i) <> SmRun -> supervisions i n = [].
Proof.
  intros m n i I Sm. unfold supervisions.
  destruct (filter _ (n_timers n)) as [|z q] eqn:F; auto. exfalso.
  assert (Hz : In z (z :: q)) by (now left). rewrite <- F in Hz. apply filter_In in Hz.
  destruct Hz as [Hz Q]. destruct (t_kind z) eqn:K; [|discriminate]. apply Nat.eqb_eq in Q.
  destruct (v_sm I z Hz K) as (_ & H & _). rewrite Q in H. auto.
Qed.

Lemma starting_run : forall m n i, inv m n -> tinv i (n_ars n i) (n_tr n) ->
  (starting (S i) (n_tr n) <-> a_sm (n_ars n i) = SmRun).
Proof.
  intros m n i I T. pose proof (since_state I T) as S. destruct T as (T1 & T2 & _).
  unfold starting. destruct (since (Datatypes.S i) (n_tr n)) as [l|] eqn:E.
  - destruct S as (U & Ac). destruct (T2 (proj1 Ac)) as (l' & E' & _ & _ & D).
    injection E' as <-. destruct Ac as (_ & _ & _ & _ & _ & _ & _ & A8 & A9 & _).
    split.
    + intros (l' & Q & N). injection Q as <-. apply A9. tauto.
    + intros Q. exists l. split; auto. intros H. apply D in H. destruct (A8 H). congruence.
  - split; [intros (l & Q & _); discriminate|].
    intros Q. destruct S as [Z|(U & Id)]; [rewrite Z in Q; discriminate|].
    assert (a_sm (n_ars n i) = SmIdle) by apply Id. congruence.
Qed.

(** ** C30: start-up supervision *)

(** While a connection is starting exactly one supervision timer is pending
    for it, with the time-out that the connection's controller asked for. *)
Theorem C30_supervised_while_starting : forall m n i,
  reachable m answers_consistently n -> starting (S i) (n_tr n) ->
  exists t, supervisions i n = [t] /\
            t_delay t = u32 (a_factor (n_ars n i) * 100 * 1000).
Proof.
  intros m n i R S. destruct (reach_inv R) as [I T].
  apply (starting_run I (T i)) in S.
  destruct (@supervised m n i I S) as (t & A & _ & _ & _ & B). eauto.
Qed.

(** Otherwise none is pending: in data exchange, after an abort, before the
    connection exists. *)
Theorem C30_not_supervised_otherwise : forall m n i,
  reachable m answers_consistently n -> ~ starting (S i) (n_tr n) ->
  supervisions i n = [].
Proof.
  intros m n i R S. destruct (reach_inv R) as [I T].
  eapply unsupervised; eauto. intros Q. apply S. now apply (starting_run I (T i)).
Qed.

(** The expiry of a supervision timer happens only while its connection is
    starting; it reports an abort, ends the connection and leaves the other
    connections and their event histories as they are. *)
Theorem C30_expiry_aborts : forall m n t,
  reachable m answers_consistently n -> In t (n_timers n) -> t_kind t = TSm ->
  let n' := step m (IExpire (t_id t)) n in
  starting (S (t_ar t)) (n_tr n) /\
  (exists os, n_tr n' = os ++ OEvent (S (t_ar t)) EvAbort :: n_tr n) /\
  since (S (t_ar t)) (n_tr n') = None /\
  a_use (n_ars n' (t_ar t)) = false /\
  supervisions (t_ar t) n' = [] /\
  (forall j, j <> t_ar t ->
     n_ars n' j = n_ars n j /\ since (S j) (n_tr n') = since (S j) (n_tr n)).
Proof.
  intros m n t R Ht K n'. destruct (reach_inv R) as [I T].
  destruct (v_sm I t Ht K) as (U & Sm & Hs & Dl).
  assert (Ab : aborted (t_ar t) n n').
  { (* the path of the step is one abort *)
    subst n'. cbn [step]. unfold expire.
    destruct (find (fun u => t_id u =? t_id t) (n_timers n)) as [u|] eqn:F.
    2:{ exfalso. apply (@find_none _ _ _ F) in Ht. rewrite Nat.eqb_refl in Ht. discriminate. }
    apply find_some in F. destruct F as [Hu Eu]. apply Nat.eqb_eq in Eu.
    assert (u = t) by (eapply timer_unique; eauto; apply (v_nodup I)). subst u.
    rewrite K. apply (@expired_aborts m); auto. }
  destruct (inv_use _ I U) as (Lt & Ar & _).
  destruct Ab as (A & B & C & D & E & G). rewrite Ar in *.
  assert (R' : reachable m answers_consistently n') by (apply reach_step; auto; exact Logic.I).
  destruct (reach_inv R') as [I' T'].
  assert (Au : n_ars n' (t_ar t) = ar0) by (rewrite A; apply upd_same).
  split; [now apply (starting_run I (T (t_ar t)))|].
  split; [eexists; rewrite G; rewrite app_assoc; reflexivity|].
  split. { destruct (T' (t_ar t)) as (T1 & _). apply T1. rewrite Au. discriminate. }
  split; [rewrite Au; reflexivity|].
  split; [eapply unsupervised; eauto; rewrite Au; discriminate|].
  intros j Hj. split; [rewrite A; now apply upd_other|].
  rewrite G, since_foreign by apply plain_foreign, clear_plain.
  rewrite since_foreign by apply plain_foreign, tr_su_plain. cbn.
  destruct (Nat.eqb_spec (t_ar t) j); [congruence|reflexivity].
Qed.

(** Observations that end or restart no connection. *)
Definition nostop (o : obs) : Prop :=
  match o with OEvent _ EvAbort | OEvent _ EvStartup => False | _ => True end.
Lemma exchanging_app : forall a os tr, Forall nostop os -> exchanging a tr ->
  exchanging a (os ++ tr).
Proof.
  induction 1 as [|o r Ho Hr IH]; cbn [app]; auto. intros E. specialize (IH E).
  destruct IH as (l & E1 & E2). unfold exchanging.
  destruct o as [b e| | | | | | | | | | | | | | | ]; cbn; eauto.
  destruct (b =? a); eauto. rewrite E1. destruct e; cbn in *; try tauto; eexists; split; eauto; now right.
Qed.
Lemma plain_nostop : forall os, Forall plain os -> Forall nostop os.
Proof. intros os H. eapply Forall_impl; [|exact H]. intros []; cbn; tauto. Qed.

Lemma poll_nostop : forall i n, exists os, n_tr (cmio_expired i n) = os ++ n_tr n /\ Forall nostop os.
Proof.
  intros i n. unfold cmio_expired.
  destruct (a_io (n_ars n i)); try (exists []; split; [reflexivity|constructor]).
  destruct (a_resched (n_ars n i)); [|exists []; split; [reflexivity|constructor]].
  unfold io_add. cbn [add_timer setar n_tr]. unfold cmio_info. cbn [emit n_ars].
  set (b := data_possible (n_ars n i)).
  assert (One : exists os, OInfo i b :: n_tr n = os ++ n_tr n /\ Forall nostop os).
  { exists [OInfo i b]. split; auto. repeat constructor. }
  destruct (a_dev (n_ars n i)) eqn:Dv; auto.
  destruct b; [|exact One]. unfold set_dev. cbn [setar n_tr].
  set (n2 := mkNet (upd (n_ars n) i (with_ready true (n_ars n i))) (n_order n) (n_subs n)
               (n_timers n) (n_next n) (OInfo i true :: n_tr n)).
  assert (Ne : EvData <> EvAbort) by discriminate.
  pose proof (event_delta i n2 Ne) as E.
  change (exists os, n_tr (state_ind i EvData n2) = os ++ n_tr n /\ Forall nostop os).
  rewrite (d_tr E).
  exists ((tr_su i EvData (n_ars n2 i) ++ [OEvent (a_arep (n_ars n2 i)) EvData]) ++ [OInfo i true]).
  split; [rewrite <- !app_assoc; reflexivity|].
  apply Forall_app. split; [|repeat constructor]. apply Forall_app. split; [|repeat constructor].
  apply plain_nostop, tr_su_plain.
Qed.

(** No timer that expires ends a connection that exchanges data. *)
Theorem C30_never_aborts_data_exchange : forall m n i id,
  reachable m answers_consistently n -> exchanging (S i) (n_tr n) ->
  exchanging (S i) (n_tr (step m (IExpire id) n)).
Proof.
  intros m n i id R X. destruct (reach_inv R) as [I T].
  cbn [step]. unfold expire.
  destruct (find (fun u => t_id u =? id) (n_timers n)) as [t|] eqn:F; auto.
  apply find_some in F. destruct F as [Ht Ei]. apply Nat.eqb_eq in Ei. subst id.
  destruct (t_kind t) eqn:K.
  - destruct (C30_expiry_aborts t R Ht K) as (S & _ & _ & _ & _ & O).
    assert (N : i <> t_ar t).
    { intros ->. destruct S as (l & E & N). destruct X as (l' & E' & H). congruence. }
    destruct (O i N) as [_ O2]. unfold exchanging in *.
    cbn [step] in O2. unfold expire in O2.
    destruct (find (fun u => t_id u =? t_id t) (n_timers n)) as [u|] eqn:F.
    2:{ exfalso. apply (@find_none _ _ _ F) in Ht. rewrite Nat.eqb_refl in Ht. discriminate. }
    apply find_some in F. destruct F as [Hu Eu]. apply Nat.eqb_eq in Eu.
    assert (u = t) by (eapply timer_unique; eauto; apply (v_nodup I)). subst u.
    rewrite K in O2. rewrite O2. auto.
  - set (n1 := settimers _ n). destruct (poll_nostop (t_ar t) n1) as (os & E & F).
    rewrite E. apply exchanging_app; auto.
Qed.

(** A read or write request starts the supervision time anew. *)
Theorem C30_requests_restart_supervision : forall m n i x,
  reachable m answers_consistently n -> starting (S i) (n_tr n) ->
  x = IRead i \/ (exists k ix, x = IWrite i k ix) ->
  exists t, supervisions i (step m x n) = [t] /\ ~ In (t_id t) (map t_id (n_timers n)) /\
            t_delay t = u32 (a_factor (n_ars n i) * 100 * 1000).
Proof.
  intros m n i x R S X. destruct (reach_inv R) as [I T].
  apply (starting_run I (T i)) in S.
  assert (Cx : answers_consistently x) by (destruct X as [->|(k & ix & ->)]; exact Logic.I).
  pose proof (inv_step x I Cx) as I'.
  assert (U : a_use (n_ars n i) = true).
  { destruct (v_ar I i) as [Z|(U & _)]; auto. rewrite Z in S. discriminate. }
  assert (Eq : n_ars (step m x n) i = with_sm SmRun (Some (n_next n)) (n_ars n i)).
  { assert (Rd : forall n1, n_ars n1 = n_ars n -> n_next n1 = n_next n ->
              n_ars (read_ind i n1) i = with_sm SmRun (Some (n_next n)) (n_ars n i)).
    { intros n1 E1 E2. unfold read_ind. rewrite E1, S. unfold sm_restart. cbn.
      rewrite upd_same, E1, E2, S. reflexivity. }
    destruct X as [->|(k & ix & ->)]; cbn [step]; unfold guard; rewrite U; [apply Rd; auto|].
    unfold write_ind. apply Rd; match goal with |- context [if ?b then _ else _] => destruct b end; auto. }
  assert (Sm' : a_sm (n_ars (step m x n) i) = SmRun) by (rewrite Eq; reflexivity).
  destruct (@supervised m _ i I' Sm') as (t & A & Ht & K & Ea & Dl).
  exists t. split; auto. rewrite Eq in Dl. split; [|exact Dl].
  destruct (v_sm I' t Ht K) as (_ & _ & Hs & _). rewrite Ea, Eq in Hs. cbn in Hs.
  injection Hs as Hs. rewrite <- Hs. intros H. apply in_map_iff in H.
  destruct H as (u & Eu & Hu). pose proof (v_fresh I u Hu). lia.
Qed.

(** The time-out is the one in the connect request that established the
    connection. *)
Definition from_request (own : env) (n n' : net) : Prop :=
  forall i, a_use (n_ars n' i) = true ->
    (a_use (n_ars n i) = true /\ a_factor (n_ars n' i) = a_factor (n_ars n i)) \/
    (exists q, e_ok own q /\ a_factor (n_ars n' i) = q_factor q).
Lemma from_request_atom : forall m own n n', atom m own n n' -> from_request own n n'.
Proof.
  intros m own n n' At.
  assert (Gen : (forall k, a_use (n_ars n' k) = true -> a_use (n_ars n k) = true /\
                           a_factor (n_ars n' k) = a_factor (n_ars n k)) -> from_request own n n').
  { intros H i Ui. left. auto. }
  assert (Del : forall i a' tm nx os, delta i n n' a' tm nx os ->
                a_use a' = a_use (n_ars n i) -> a_factor a' = a_factor (n_ars n i) ->
                from_request own n n').
  { intros i a' tm nx os [A B _ _ _ _ _] E1 E2. apply Gen. intros z.
    destruct (Nat.eq_dec z i) as [->|N]; [rewrite B, E1, E2; auto|rewrite A; auto]. }
  assert (New : forall i q a', (forall k, n_ars n' k = upd (n_ars n) i a' k) ->
                a_factor a' = q_factor q -> e_ok own q -> from_request own n n').
  { intros i q a' A Eq D k Uk. rewrite A in *. unfold upd in *.
    destruct (Nat.eqb_spec k i); subst; auto. right. exists q. auto. }
  destruct At.
  - apply Gen. intros z. rewrite Q1; auto.
  - subst. apply Gen. intros z; cbn; auto.
  - apply Gen. intros z. rewrite F1; auto.
  - destruct Ha as (A & _). apply Gen. intros z. rewrite A. unfold upd.
    destruct (Nat.eqb_spec z i); auto. discriminate.
  - eapply New; eauto. reflexivity.
  - eapply New; eauto. reflexivity.
  - eapply Del; [exact D2|reflexivity|reflexivity].
  - pose proof (p_all_keep e (n_next n) (n_ars n i)) as K. unfold keep in K.
    eapply Del; [exact E2|apply K|apply K].
  - pose proof (p_all_keep EvPrmend (n_next n) (with_dev WArdy (n_ars n i))) as K. unfold keep in K.
    eapply Del; [exact M2|apply K|apply K].
  - pose proof (p_all_keep EvData (n_next n) (n_ars n i)) as K. unfold keep in K.
    eapply Del; [exact T3|apply K|apply K].
  - eapply Del; [exact I2|..]; destruct (a_dev (n_ars n i)); reflexivity.
  - eapply Del; [exact N1|..]; destruct (a_io (n_ars n i)); reflexivity.
  - eapply Del; [exact R2|reflexivity|reflexivity].
  - subst. apply Gen. auto.
  - eapply Del; [exact Y1|reflexivity|reflexivity].
  - eapply Del; [exact Z1|reflexivity|reflexivity].
  - eapply Del; [exact B3|reflexivity|reflexivity].
Qed.
Lemma from_request_path : forall m own n n', path m own n n' -> from_request own n n'.
Proof.
  induction 1 as [n|n n1 n2 A P IH]; intros i U; auto.
  destruct (IH i U) as [(U1 & E1)|(q & Q1 & Q2)]; [|right; eauto].
  destruct (from_request_atom A i U1) as [(U0 & E0)|(q & Q1 & Q2)].
  - left. split; congruence.
  - right. exists q. split; congruence.
Qed.

Theorem C30_armed_with_requested_time : forall m n q i,
  reachable m answers_consistently n -> answers_consistently (IConnect q) ->
  a_use (n_ars n i) = false ->
  starting (S i) (n_tr (step m (IConnect q) n)) ->
  exists t, supervisions i (step m (IConnect q) n) = [t] /\
            t_delay t = u32 (q_factor q * 100 * 1000).
Proof.
  intros m n q i R C U S. destruct (reach_inv R) as [I T].
  pose proof (reach_step _ R C) as R'. destruct (reach_inv R') as [I' T'].
  destruct (C30_supervised_while_starting R' S) as (t & A & B).
  exists t. split; auto. rewrite B. do 3 f_equal.
  assert (U' : a_use (n_ars (step m (IConnect q) n) i) = true).
  { apply (starting_run I' (T' i)) in S.
    destruct (v_ar I' i) as [Z|(U' & _)]; auto. rewrite Z in S. discriminate. }
  destruct (from_request_path (step_one _ I C) i U') as [(U0 & _)|(q' & Q1 & Q2)]; [congruence|].
  unfold e_ok in Q1; cbn in Q1. injection Q1 as <-. exact Q2.
Qed.

(** ** C31: record writes *)

Lemma kinv_run : forall m n, reachable m answers_consistently n -> kinv n.
Proof.
  intros m n (xs & F & ->).
  apply (@run_ind m answers_consistently any_env kinv); auto.
  - intros x H. split; auto. split; [discriminate|exact Logic.I].
  - intros n n' _ K A. eapply kinv_atom; eauto.
  - apply inv_net0.
  - constructor.
Qed.

Lemma kinv_find : forall n s k, kinv n -> In s (n_subs n) -> s_use s = true -> s_key s = k ->
  find_sub k (n_subs n) = Some s.
Proof.
  intros n s k K. unfold kinv, find_sub in *. revert K. generalize (n_subs n).
  induction l as [|y r IH]; cbn; intros K H U E; [tauto|].
  destruct (s_use y) eqn:Uy; cbn in K.
  - inversion K; subst. destruct H as [->|H].
    + assert (X : key_eqb (s_key s) (s_key s) = true) by now apply key_eqb_eq. now rewrite X.
    + destruct (key_eqb (s_key y) (s_key s)) eqn:Q; cbn; auto.
      exfalso. apply H2. apply key_eqb_eq in Q. rewrite Q. apply in_map. apply filter_In. auto.
  - destruct H as [->|H]; [congruence|]. cbn. auto.
Qed.

Lemma write_effects : forall m n i k ix, inv m n -> a_use (n_ars n i) = true ->
  forall os, effects m (IWrite i k ix) n os ->
  os = if match a_wrr (n_ars n i) with WrStartup | WrData => negb (a_backup (n_ars n i)) | _ => false end
          && negb (match find_sub k (n_subs n) with Some s => negb (owned_by i s) | None => false end)
          && writable ix
       then [OWrite i k ix] else [].
Proof.
  intros m n i k ix I U os E. unfold effects in E. cbn [step] in E. unfold guard in E.
  rewrite U in E. unfold write_ind in E.
  assert (Rd : forall n1, n_tr (read_ind i n1) = n_tr n1).
  { intros n1. unfold read_ind. destruct (a_sm (n_ars n1 i)); reflexivity. }
  rewrite Rd in E.
  match goal with |- _ = if ?b then _ else _ => destruct b end; cbn in E.
  - symmetry. apply (app_inv_tail (n_tr n)). exact E.
  - symmetry. apply (app_inv_tail (n_tr n)). exact E.
Qed.

(** The permission to write, in terms of what the application has seen: the
    connection is started and its parameterisation has not ended, or the
    application has declared itself ready; the connection is not a backup
    connection; a sub-module that is plugged at the address is owned by the
    connection; and the index is a user index, an I&M record or one of the
    port and interface records (PDPortDataCheck, PDPortDataAdjust,
    PDInterfaceAdjust). *)
Definition writable_index (ix : Z) : Prop :=
  (ix <= 32767 \/ 45040 <= ix <= 45055 \/ ix = 32811 \/ ix = 32815 \/ ix = 32881)%Z.
Lemma writable_iff : forall ix, writable ix = true <-> writable_index ix.
Proof.
  intros ix. unfold writable, writable_index.
  rewrite !orb_true_iff, andb_true_iff, !Z.leb_le, !Z.eqb_eq. lia.
Qed.
Definition may_write (n : net) (i : nat) (k : key) (ix : Z) : Prop :=
  (exists l, since (S i) (n_tr n) = Some l /\ (~ In EvPrmend l \/ In EvApplrdy l)) /\
  a_backup (n_ars n i) = false /\
  (forall s, In s (n_subs n) -> s_use s = true -> s_key s = k -> s_owner s = Some i) /\
  writable_index ix.

Theorem C31_written_only_if_permitted : forall m n x os i k ix,
  reachable m answers_consistently n -> answers_consistently x ->
  effects m x n os -> In (OWrite i k ix) os ->
  x = IWrite i k ix /\ may_write n i k ix.
Proof.
  intros m n x os i k ix R C E H. destruct (reach_inv R) as [I T].
  destruct (effects_path (step_one _ I C)) as (os' & E' & W & _).
  unfold effects in E. rewrite E in E'. apply app_inv_tail in E'. subst os'.
  pose proof (W _ _ _ H) as X. cbn in X. subst x. split; auto.
  destruct (a_use (n_ars n i)) eqn:U.
  2:{ cbn in E. unfold guard in E. rewrite U in E.
      assert (os = []) by (apply (app_inv_tail (n_tr n)); exact (eq_sym E)). subst. destruct H. }
  rewrite (@write_effects m n i k ix I U os E) in H.
  match type of H with context [if ?b then _ else _] => destruct b eqn:Q; [|destruct H] end.
  apply andb_true_iff in Q. destruct Q as [Q Qw]. apply andb_true_iff in Q. destruct Q as [Qa Qd].
  pose proof (since_state I (T i)) as S. destruct (T i) as (T1 & T2 & _).
  destruct (a_wrr (n_ars n i)) eqn:Wr; try discriminate;
    destruct (since (Datatypes.S i) (n_tr n)) as [l|] eqn:Si.
  2,4: exfalso; destruct S as [Z|(_ & Id)];
       [rewrite Z in Wr; discriminate|assert (a_wrr (n_ars n i) = WrIdle) by apply Id; congruence].
  all: destruct S as (_ & Ac); destruct (T2 (proj1 Ac)) as (l' & E1 & P1 & P2 & P3);
       injection E1 as <-.
  all: split; [exists l; split; auto; try (left; apply P1; auto; fail); right; auto|].
  all: split; [now apply negb_true_iff|split; [|now apply writable_iff]].
  all: intros s Hs Us Ks; rewrite (kinv_find s (kinv_run R) Hs Us Ks) in Qd;
       rewrite negb_involutive in Qd; unfold owned_by in Qd; destruct (s_owner s); [|discriminate];
       apply Nat.eqb_eq in Qd; congruence.
Qed.

(** Well-behaved surroundings: the application sets an error code exactly when
    it refuses a connection, and DControl requests arrive in the session that
    established the connection. *)
Definition well_behaved (x : input) : Prop :=
  answers_consistently x /\ refuses_with_error x /\ own_session x.

Lemma pinv_reach : forall m n, reachable m well_behaved n ->
  inv m n /\ forall i, pinv i (n_ars n i) (n_tr n).
Proof.
  intros m n (xs & F & ->).
  apply (@run_ind m well_behaved own_env (fun n => forall i, pinv i (n_ars n i) (n_tr n))); auto.
  - intros x (A & B & C). split; auto.
  - intros n n' I P A. eapply pinv_atom; eauto.
  - apply inv_net0.
  - intros i. unfold pinv; cbn. pd.
Qed.

(** Conversely a permitted write is carried out, and is the only effect. *)
Theorem C31_permitted_is_written : forall m n i k ix os,
  reachable m well_behaved n -> may_write n i k ix ->
  effects m (IWrite i k ix) n os -> os = [OWrite i k ix].
Proof.
  intros m n i k ix os R ((l & Si & Ph) & Bk & Ow & Wr) E.
  destruct (pinv_reach R) as [_ P]. specialize (P i).
  assert (R' : reachable m answers_consistently n).
  { eapply reach_weaken; [|exact R]. intros x (H & _). exact H. }
  clear R. rename R' into R. destruct (reach_inv R) as [I T].
  pose proof (since_state I (T i)) as S. rewrite Si in S. destruct S as (U & Ac).
  rewrite (@write_effects m n i k ix I U os E).
  assert (A1 : match a_wrr (n_ars n i) with
               | WrStartup | WrData => negb (a_backup (n_ars n i)) | _ => false end = true).
  { rewrite Bk. destruct (T i) as (_ & T2 & _). destruct (T2 (proj1 Ac)) as (l' & E1 & W1 & _).
    rewrite Si in E1. injection E1 as <-.
    destruct P as (P0 & _ & _ & _ & P3). pose proof (phase_since _ _ P0) as F. rewrite Si in F.
    destruct Ac as (_ & _ & A3 & _ & A5 & _).
    destruct A5 as [->|[A5| ->]]; auto. exfalso.
    assert (Pe : In EvPrmend l).
    { destruct (in_dec (fun a b : event => ltac:(decide equality) : {a = b} + {a <> b}) EvPrmend l) as [|N]; auto.
      apply W1 in N. congruence. }
    assert (Ap : In EvApplrdy l) by tauto.
    unfold phase_for in F. rewrite A5 in F.
    destruct A3 as [Q|[Q|Q]].
    - rewrite Q in F. subst l. destruct Ap.
    - rewrite Q in F. subst l. destruct Ap as [Ap|[]]; discriminate.
    - rewrite P3 in A5 by tauto. discriminate. }
  assert (A2 : match find_sub k (n_subs n) with Some s => negb (owned_by i s) | None => false end = false).
  { unfold find_sub. destruct (find _ (n_subs n)) as [s|] eqn:F; auto. apply find_some in F.
    destruct F as [F1 F2]. apply andb_true_iff in F2. destruct F2 as [F2 F3].
    apply key_eqb_eq in F3. unfold owned_by. rewrite (Ow s F1 F2 F3), Nat.eqb_refl. reflexivity. }
  apply writable_iff in Wr. rewrite A1, A2, Wr. reflexivity.
Qed.

(** ** C33: data exchange *)

(** The CR with index [c] of connection [i] is one the device receives. *)
Definition consumer_cr (n : net) (i c : nat) : Prop :=
  exists x, nth_error (a_crs (n_ars n i)) c = Some x /\
    (io_kind x = CrOutput \/ io_kind x = CrMcConsumer).
Lemma is_consumer_iff : forall k, is_consumer k = true <-> (k = CrOutput \/ k = CrMcConsumer).
Proof. intros [| | |]; cbn; split; intuition discriminate. Qed.

Lemma data_possible_iff : forall a,
  data_possible a = true <->
  (forall c x, nth_error (a_crs a) c = Some x -> is_consumer (io_kind x) = true -> io_start x = true).
Proof.
  intros a. unfold data_possible. rewrite forallb_forall. split.
  - intros H c x Hc K. apply nth_error_In in Hc. specialize (H x Hc). rewrite K in H. exact H.
  - intros H x Hx. apply In_nth_error in Hx. destruct Hx as (c & Hc).
    destruct (is_consumer (io_kind x)) eqn:K; auto. cbn. eauto.
Qed.

Lemma info_effects : forall m n i, inv m n ->
  forall os b j, n_tr (cmio_expired i n) = os ++ n_tr n -> In (OInfo j b) os ->
  j = i /\ a_use (n_ars n i) = true /\ a_io (n_ars n i) = IoWdata /\ b = data_possible (n_ars n i).
Proof.
  intros m n i I os b j E H. unfold cmio_expired in E.
  assert (Nil : n_tr n = os ++ n_tr n -> False).
  { intros Q. assert (os = []) by (apply (app_inv_tail (n_tr n)); exact (eq_sym Q)). subst. destruct H. }
  destruct (a_io (n_ars n i)) eqn:Io; try (destruct (Nil E)).
  destruct (a_resched (n_ars n i)); [|destruct (Nil E)].
  assert (U : a_use (n_ars n i) = true).
  { destruct (a_use (n_ars n i)) eqn:U; auto. rewrite (inv_nouse i I U) in Io. discriminate. }
  unfold io_add in E. cbn [add_timer setar n_tr] in E. unfold cmio_info in E. cbn [emit n_ars] in E.
  set (p := data_possible (n_ars n i)) in *.
  assert (One : OInfo i p :: n_tr n = os ++ n_tr n -> j = i /\ b = p).
  { intros Q. change (OInfo i p :: n_tr n) with ([OInfo i p] ++ n_tr n) in Q.
    apply app_inv_tail in Q. subst os. destruct H as [H|[]]. injection H as -> ->. auto. }
  assert (Fin : j = i /\ b = p); [|tauto].
  destruct (a_dev (n_ars n i)); try exact (One E).
  destruct p; [|exact (One E)]. unfold set_dev in E. cbn [setar n_tr] in E.
  set (n2 := mkNet (upd (n_ars n) i (with_ready true (n_ars n i))) (n_order n) (n_subs n)
               (n_timers n) (n_next n) (OInfo i true :: n_tr n)).
  assert (Ne : EvData <> EvAbort) by discriminate.
  pose proof (event_delta i n2 Ne) as D.
  change (n_tr (state_ind i EvData n2) = os ++ n_tr n) in E. rewrite (d_tr D) in E.
  change (n_tr n2) with ([OInfo i true] ++ n_tr n) in E. rewrite app_assoc in E.
  apply app_inv_tail in E. subst os. apply in_app_iff in H. destruct H as [H|[H|[]]].
  - exfalso. apply in_app_iff in H. destruct H as [H|[H|[]]]; [|discriminate].
    pose proof (tr_su_plain i EvData (n_ars n2 i)) as P. rewrite Forall_forall in P.
    exact (P _ H).
  - injection H as -> ->. auto.
Qed.

(** Whatever is reported to be possible or not is right: "data exchange is
    possible" is reported exactly when for every consumer the last thing
    heard since the end of parameterisation is that it runs. *)
Theorem C33_report_is_right : forall m n x os i b,
  reachable m answers_consistently n -> answers_consistently x ->
  effects m x n os -> In (OInfo i b) os ->
  (b = true <-> forall c, consumer_cr n i c -> told i c (n_tr n) = Some true).
Proof.
  intros m n x os i b R C E H. destruct (reach_inv R) as [I T].
  destruct (effects_path (step_one _ I C)) as (os' & E' & _ & W).
  unfold effects in E. rewrite E in E'. apply app_inv_tail in E'. subst os'.
  destruct (W _ _ H) as (id & X). cbn in X. subst x. cbn [step] in E. unfold expire in E.
  assert (Nil : n_tr n = os ++ n_tr n -> False).
  { intros Q. assert (os = []) by (apply (app_inv_tail (n_tr n)); exact (eq_sym Q)). subst. destruct H. }
  destruct (find (fun t => t_id t =? id) (n_timers n)) as [t|] eqn:F; [|destruct (Nil E)].
  apply find_some in F. destruct F as [Ht Ei]. apply Nat.eqb_eq in Ei. subst id.
  destruct (t_kind t) eqn:K.
  { exfalso. destruct (@expired_aborts m t n I Ht K) as (_ & _ & _ & _ & _ & G).
    rewrite E in G.
    match type of G with _ = ?c ++ ?s ++ ?o :: ?tr =>
      assert (Eo : os = c ++ s ++ [o]) end.
    { apply (app_inv_tail (n_tr n)). rewrite G, <- !app_assoc. reflexivity. }
    subst os. apply in_app_iff in H. destruct H as [H|H].
    - apply clear_obs_released in H. destruct H as (j & k & H). discriminate.
    - apply in_app_iff in H. destruct H as [H|[H|[]]]; [|discriminate].
      pose proof (tr_su_plain (t_ar t) EvAbort (n_ars n (t_ar t))) as P. rewrite Forall_forall in P.
      exact (P _ H). }
  set (n1 := settimers (del_timer (Some (t_id t)) (n_timers n)) n) in *.
  assert (I1 : inv m n1).
  { eapply inv_atom; [exact I|]. apply A_ioexp with (t := t) (own := any_env); cbn; auto. }
  destruct (@info_effects m n1 (t_ar t) I1 os b i E H) as (-> & U & Io & ->).
  change (n_ars n1) with (n_ars n) in *. clear E n1 I1.
  destruct (T (t_ar t)) as (_ & _ & _ & T4 & _). specialize (T4 Io).
  rewrite data_possible_iff. split.
  - intros D c (x & Hx & Kx). apply is_consumer_iff in Kx. destruct (T4 c) as (b & B1 & B2).
    rewrite B1, <- (B2 x Hx Kx). f_equal. eauto.
  - intros D c x Hx Kx. destruct (T4 c) as (b & B1 & B2).
    rewrite (B2 x Hx Kx). assert (Q : told (t_ar t) c (n_tr n) = Some true).
    { apply D. exists x. rewrite <- is_consumer_iff. auto. }
    congruence.
Qed.

(** A connection enters data exchange only after a report that this is
    possible, made since the connection was started. *)
Theorem C33_data_only_when_possible : forall m n os i r,
  reachable m answers_consistently n ->
  n_tr n = os ++ OEvent (S i) EvData :: r -> reported i r = Some true.
Proof.
  intros m n os i r (xs & F & ->) E.
  assert (D : data_reported (n_tr (run m xs net0))).
  { apply (@run_ind m answers_consistently any_env
             (fun n => (forall i, tinv i (n_ars n i) (n_tr n)) /\ data_reported (n_tr n))); auto.
    - intros x H. split; auto. split; [discriminate|exact Logic.I].
    - intros n n' I [T D] A. split; [eapply tinv_atom; eauto|eapply data_reported_atom; eauto].
    - apply inv_net0.
    - split; [apply tinv_net0|]. intros [|o os'] i' r' Q; discriminate. }
  eapply D; eauto.
Qed.

(** A consumer that stops in data exchange ends the connection; one that
    reports to be running does not. *)
Theorem C33_stop_aborts : forall m n i c,
  reachable m answers_consistently n -> exchanging (S i) (n_tr n) ->
  let n' := step m (ICpmState i c false) n in
  (exists os, n_tr n' = os ++ OEvent (S i) EvAbort :: OInd i c false :: n_tr n) /\
  since (S i) (n_tr n') = None /\ a_use (n_ars n' i) = false.
Proof.
  intros m n i c R (l & Si & Hd) n'. destruct (reach_inv R) as [I T].
  pose proof (since_state I (T i)) as S. rewrite Si in S. destruct S as (U & Ac).
  destruct (inv_use i I U) as (_ & Ar & _).
  assert (Io : a_io (n_ars n i) = IoData).
  { destruct (T i) as (_ & T2 & _). destruct (T2 (proj1 Ac)) as (l' & E & _ & _ & D).
    rewrite Si in E. injection E as <-. apply D in Hd.
    destruct Ac as (_ & _ & _ & _ & _ & _ & A7 & _). tauto. }
  assert (Eq : n' = state_ind i EvAbort (emit (OInd i c false) n)).
  { unfold n'. cbn [step]. unfold guard. rewrite U. unfold cpm_state.
    cbn [emit n_ars]. rewrite Io. reflexivity. }
  assert (R' : reachable m answers_consistently n') by (apply reach_step; [exact R|exact Logic.I]).
  clearbody n'. subst n'.
  destruct (@aborted_self i (emit (OInd i c false) n) U) as (A & _ & _ & _ & _ & G).
  cbn [emit n_ars] in A, G. rewrite Ar in G.
  assert (Z : n_ars (state_ind i EvAbort (emit (OInd i c false) n)) i = ar0)
    by (rewrite A; apply upd_same).
  split; [eexists; rewrite G, app_assoc; reflexivity|].
  destruct (reach_inv R') as [_ T']. destruct (T' i) as (T1 & _).
  split; [|rewrite Z; reflexivity]. apply T1. rewrite Z. discriminate.
Qed.

Theorem C33_running_keeps : forall m n i c,
  reachable m answers_consistently n -> exchanging (S i) (n_tr n) ->
  exchanging (S i) (n_tr (step m (ICpmState i c true) n)).
Proof.
  intros m n i c R X. destruct X as (l & Si & Hd). destruct (reach_inv R) as [I T].
  pose proof (since_state I (T i)) as S. rewrite Si in S. destruct S as (U & Ac).
  cbn [step]. unfold guard. rewrite U. unfold cpm_state. cbn [emit n_ars].
  exists l. destruct (a_io (n_ars n i)); cbn; try rewrite andb_false_r; cbn; auto.
Qed.

(** While a connection waits for data a poll is pending. *)
Definition polled (n : net) : Prop :=
  forall i, a_io (n_ars n i) = IoWdata ->
    exists t, In t (n_timers n) /\ t_kind t = TIo /\ t_ar t = i.


Lemma tio_not_hsm : forall m n i t, inv m n -> a_sm (n_ars n i) = SmRun ->
  In t (n_timers n) -> t_kind t = TIo -> a_hsm (n_ars n i) <> Some (t_id t).
Proof.
  intros m n i t I Sm Ht K E. destruct (v_run I i Sm) as (u & Hu & Ku & Eu).
  destruct (v_sm I u Hu Ku) as (_ & _ & Q & _). rewrite Eu, E in Q. injection Q as Q.
  assert (t = u) by (eapply timer_unique; eauto; apply (v_nodup I)). congruence.
Qed.

Lemma polled_event : forall n n' i e b, polled n ->
  e <> EvAbort -> e <> EvStartup -> e <> EvData ->
  a_io b = a_io (n_ars n i) -> (forall k, k <> i -> n_ars n' k = n_ars n k) ->
  n_ars n' i = p_all e (n_next n) b -> n_timers n' = tm_all e i (n_next n) b (n_timers n) ->
  polled n'.
Proof.
  intros n n' i e b P Na Ns Nd Eb A B T.
  assert (Tm : n_timers n' = tm_io e i (n_next n) b (n_timers n)).
  { rewrite T. unfold tm_all. assert (E : p_su e b = b) by (unfold p_su; destruct (a_su b), e; congruence).
    rewrite E. unfold tm_sm. destruct (a_sm _), e; congruence. }
  assert (Sub : forall t, In t (n_timers n) -> In t (n_timers n')).
  { intros t Ht. rewrite Tm. unfold tm_io. destruct (a_io b), e; auto; try congruence. now right. }
  destruct (@p_all_fields e (n_next n) b Na Ns) as (_ & _ & _ & F & _).
  intros j Hj. destruct (Nat.eq_dec j i) as [->|N].
  - rewrite B, F in Hj. destruct (a_io b) eqn:Io.
    + exfalso. revert Hj. unfold p_io. rewrite Io. destruct e; cbn; congruence.
    + destruct e; try congruence; unfold p_io in Hj; rewrite Io in Hj; cbn in Hj.
      * exists (mkTm (n_next n) TIo i 100000). split; auto. rewrite Tm. unfold tm_io. rewrite Io. now left.
      * congruence.
    + destruct (P i) as (t & Ht & K & E); [congruence|]. exists t. auto.
    + exfalso. revert Hj. unfold p_io. rewrite Io. destruct e; cbn; congruence.
  - rewrite A in Hj by auto. destruct (P j Hj) as (t & Ht & K & E). exists t. auto.
Qed.

Lemma polled_data : forall m n n' i, inv m n -> polled n ->
  a_use (n_ars n i) = true -> a_ready (n_ars n i) = true ->
  a_dev (n_ars n i) = WArdycnf \/ a_dev (n_ars n i) = WData ->
  (forall k, k <> i -> n_ars n' k = n_ars n k) ->
  n_ars n' i = with_dev DevData (p_all EvData (n_next n) (n_ars n i)) ->
  n_timers n' = tm_all EvData i (n_next n) (n_ars n i) (n_timers n) -> polled n'.
Proof.
  intros m n n' i I P U Rd Dv A B T. set (a := n_ars n i) in *.
  assert (Ac : active a).
  { destruct (inv_use i I U) as (_ & _ & [Id|Ac]); auto.
    assert (a_dev (n_ars n i) = WCind) by apply Id. fold a in H. destruct Dv; congruence. }
  destruct Ac as (A1 & A2 & A3 & A4 & A5 & A6 & A7 & A8 & A9 & A10 & _).
  assert (Nd : a_dev a <> DevData) by (destruct Dv; congruence).
  destruct (A9 Nd) as [Sm _].
  assert (Io : a_io a = IoWdata).
  { destruct A4 as [Q|[Q|Q]]; auto; [destruct (A10 Rd Q)|tauto]. }
  assert (Na : EvData <> EvAbort) by discriminate. assert (Ns : EvData <> EvStartup) by discriminate.
  destruct (@p_all_fields EvData (n_next n) a Na Ns) as (_ & _ & _ & F & _).
  assert (Tm : forall t, In t (n_timers n) -> t_kind t = TIo -> t_ar t <> i -> In t (n_timers n')).
  { intros t Ht K E. rewrite T. unfold tm_all, tm_sm.
    destruct (pre_sm_keep EvData (n_next n) a) as [K1 K2]. rewrite K1, K2, Sm.
    apply in_del. split; [|eapply tio_not_hsm; eauto].
    assert (Es : p_su EvData a = a) by (unfold p_su; rewrite A1; reflexivity).
    rewrite Es. unfold tm_io. rewrite Io. apply in_del. split; auto.
    intros Q. destruct (v_hio I i Q) as [_ Q']. destruct (Q' t Ht eq_refl). congruence. }
  intros j Hj. destruct (Nat.eq_dec j i) as [->|N].
  - exfalso. rewrite B in Hj. cbn [a_io with_dev] in Hj. rewrite F in Hj. unfold p_io in Hj.
    rewrite Io in Hj. discriminate.
  - rewrite A in Hj by auto. destruct (P j Hj) as (t & Ht & K & E). exists t. split; auto.
    apply Tm; auto. congruence.
Qed.

Lemma polled_atom : forall m own n n', inv m n -> polled n -> atom m own n n' ->
  polled n' \/
  (exists t, In t (n_timers n) /\ t_kind t = TIo /\ e_in own (IExpire (t_id t))).
Proof.
  intros m own n n' I P At.
  assert (Gen : (forall j, a_io (n_ars n' j) = IoWdata ->
                   a_io (n_ars n j) = IoWdata /\
                   (forall t, In t (n_timers n) -> t_kind t = TIo -> t_ar t = j -> In t (n_timers n'))) ->
                polled n').
  { intros H j Hj. destruct (H j Hj) as [A B]. destruct (P j A) as (t & Ht & K & E). exists t. auto. }
  assert (Del : forall i a' tm nx os, delta i n n' a' tm nx os ->
                (a_io a' = IoWdata -> a_io (n_ars n i) = IoWdata) ->
                (forall t, In t (n_timers n) -> t_kind t = TIo -> In t tm) -> polled n').
  { intros i a' tm nx os [A B _ _ T _ _] E1 E2. apply Gen. intros j Hj. rewrite T. split; auto.
    destruct (Nat.eq_dec j i) as [->|N]; [apply E1; congruence|rewrite A in Hj; auto]. }
  destruct At.
  - left. apply Gen. intros z. rewrite Q1, Q4; auto.
  - left. subst. apply Gen. intros z; cbn; auto.
  - left. apply Gen. intros z. rewrite F1, F4; auto.
  - left. destruct Ha as (A & _ & _ & T & _). apply Gen. intros z. rewrite A. unfold upd.
    destruct (Nat.eqb_spec z i); [discriminate|]. intros Q. split; auto.
    intros t Ht K E. rewrite T. destruct (a_sm (n_ars n i)) eqn:Sm; auto.
    apply in_del. split; auto. eapply tio_not_hsm; eauto.
  - left. apply Gen. intros z. rewrite S1. unfold upd. destruct (Nat.eqb_spec z i); [discriminate|].
    intros Q. split; auto. intros. rewrite S4. now right.
  - left. apply Gen. intros z. rewrite W1. unfold upd. destruct (Nat.eqb_spec z i); [discriminate|].
    intros Q. split; auto. intros. now rewrite W4.
  - left. eapply Del; [exact D2|auto|auto].
  - left. assert (Na : e <> EvAbort) by (destruct E1 as [[-> _]|[-> _]]; discriminate).
    assert (Ns : e <> EvStartup) by (destruct E1 as [[-> _]|[-> _]]; discriminate).
    assert (Nd : e <> EvData) by (destruct E1 as [[-> _]|[-> _]]; discriminate).
    destruct E2 as [A B _ _ T _ _]. eapply polled_event; eauto.
  - left. set (b := with_dev WArdy (n_ars n i)) in *.
    destruct M2 as [A B _ _ T _ _].
    apply (@polled_event n n' i EvPrmend b); auto; try discriminate.
  - left. destruct T3 as [A B _ _ T _ _]. eapply (@polled_data m n n' i); auto.
  - left. eapply Del; [exact I2|..]; destruct (a_dev (n_ars n i)); auto.
  - left. eapply Del; [exact N1|..]; auto. destruct (a_io (n_ars n i)) eqn:Q; cbn; congruence.
  - left. eapply Del; [exact R2|auto|]. intros t Ht K. right. apply in_del. split; auto.
    eapply tio_not_hsm; eauto.
  - right. exists t. auto.
  - left. eapply Del; [exact Y1|auto|]. intros t Ht K. now right.
  - left. eapply Del; [exact Z1|auto|auto].
  - left. eapply Del; [exact B3|auto|auto].
Qed.

Lemma polled_step : forall m x n, inv m n -> answers_consistently x -> polled n ->
  polled (step m x n).
Proof.
  intros m x n I C P.
  assert (Oth : (forall n1, path m (one_env x) n n1 -> forall t, In t (n_timers n1) ->
                   t_kind t = TIo -> x = IExpire (t_id t) -> False) -> polled (step m x n)).
  { intros H.
    assert (G : forall n1 n2, path m (one_env x) n1 n2 -> path m (one_env x) n n1 ->
                inv m n1 -> polled n1 -> polled n2).
    { induction 1 as [n1|n1 n2 n3 A Pt IH]; intros P1 I1 Q1; auto.
      apply IH; [eapply path_app; [exact P1|apply path_one; exact A]|eapply inv_atom; eauto|].
      destruct (polled_atom I1 Q1 A) as [Q|(t & Ht & K & E)]; auto.
      exfalso. cbn in E. eapply H; eauto. }
    eapply G; [apply step_one; auto|constructor|auto|auto]. }
  destruct x as [q|i|i c cb pdev sess|i avail sent|i ok dn|id|i c s|i c b|i|i k ix|i|i|k mm id|k];
    try (apply Oth; intros; discriminate).
  cbn [step]. unfold expire.
  destruct (find (fun t => t_id t =? id) (n_timers n)) as [t|] eqn:F; auto.
  apply find_some in F. destruct F as [Ht Ei]. apply Nat.eqb_eq in Ei. subst id.
  destruct (t_kind t) eqn:K.
  - pose proof (@expired_aborts m t n I Ht K) as Ab.
    destruct (v_sm I t Ht K) as (U & _).
    destruct (@polled_atom m (mkEnv false (fun _ => False)) n _ I P (@A_abort m _ n _ (t_ar t) U Ab))
      as [Q|(u & _ & _ & [])]. exact Q.
  - set (n1 := settimers (del_timer (Some (t_id t)) (n_timers n)) n).
    set (i := t_ar t).
    assert (I1 : inv m n1).
    { eapply inv_atom; [exact I|]. apply A_ioexp with (t := t) (own := any_env); cbn; auto. }
    assert (P1 : forall j, j <> i -> a_io (n_ars n1 j) = IoWdata ->
                 exists u, In u (n_timers n1) /\ t_kind u = TIo /\ t_ar u = j).
    { intros j Nj Hj. destruct (P j Hj) as (u & Hu & Ku & Eu). exists u. split; auto.
      apply in_del. split; auto. intros Q. injection Q as Q.
      assert (t = u) by (eapply timer_unique; eauto; apply (v_nodup I)). subst u. auto. }
    unfold cmio_expired.
    assert (Off : a_io (n_ars n1 i) <> IoWdata \/ a_resched (n_ars n1 i) = false ->
              polled (setar i (with_hio None (with_io (a_io (n_ars n1 i)) false (n_ars n1 i))) n1)).
    { intros Q j. cbn [setar n_ars n_timers]. unfold upd. destruct (Nat.eqb_spec j i) as [->|N].
      - cbn [a_io with_hio with_io]. intros Io. exfalso. destruct Q as [Q|Q]; [auto|].
        destruct (v_ar I1 i) as [Z|(_ & _ & _ & [Id|Ac])].
        + rewrite Z in Io. discriminate.
        + assert (a_io (n_ars n1 i) = IoIdle) by apply Id. congruence.
        + destruct Ac as (_ & _ & _ & _ & _ & _ & _ & _ & _ & _ & _ & A12). specialize (A12 Io). congruence.
      - intros Io. apply P1; auto. }
    destruct (a_io (n_ars n1 i)) eqn:Io; try (apply Off; left; discriminate).
    destruct (a_resched (n_ars n1 i)) eqn:Rs; [|apply Off; auto].
    (* reported, and a new poll started *)
    set (n2 := cmio_info i (data_possible (n_ars n1 i)) n1).
    assert (O2 : forall j, j <> i -> n_ars n2 j = n_ars n1 j).
    { intros j Nj. unfold n2, cmio_info. cbn [emit n_ars].
      destruct (a_dev (n_ars n1 i)); auto; try (cbn; rewrite upd_other; auto; fail).
      destruct (data_possible (n_ars n1 i)); [|cbn; rewrite upd_other; auto].
      unfold set_dev. cbn [setar n_ars]. rewrite upd_other by auto.
      assert (Ne : EvData <> EvAbort) by discriminate.
      match goal with |- n_ars (state_ind i EvData ?z) j = _ => pose proof (event_delta i z Ne) as D end.
      rewrite (d_other D) by auto. cbn. rewrite upd_other; auto. }
    assert (T2 : forall u, In u (n_timers n1) -> t_kind u = TIo -> t_ar u <> i -> In u (n_timers n2)).
    { intros u Hu Ku Eu. unfold n2, cmio_info. cbn [emit n_ars].
      destruct (a_dev (n_ars n1 i)) eqn:Dv; auto.
      destruct (data_possible (n_ars n1 i)); auto.
      unfold set_dev. cbn [setar n_timers].
      assert (Ne : EvData <> EvAbort) by discriminate.
      match goal with |- In u (n_timers (state_ind i EvData ?z)) =>
        set (n3 := z); pose proof (event_delta i n3 Ne) as D end.
      rewrite (d_tm D). unfold tm_all, tm_sm.
      assert (E3 : n_ars n3 i = with_ready true (n_ars n1 i)) by (unfold n3; cbn; apply upd_same).
      destruct (pre_sm_keep EvData (n_next n3) (n_ars n3 i)) as [K1 K2]. rewrite K1, K2, E3.
      cbn [a_sm a_hsm with_ready].
      assert (U1 : a_use (n_ars n1 i) = true).
      { destruct (a_use (n_ars n1 i)) eqn:U; auto. rewrite (inv_nouse i I1 U) in Io. discriminate. }
      assert (Ac : active (n_ars n1 i)).
      { destruct (inv_use i I1 U1) as (_ & _ & [Id|Ac]); auto.
        assert (a_io (n_ars n1 i) = IoIdle) by apply Id. congruence. }
      destruct Ac as (A1 & _ & _ & _ & _ & _ & _ & _ & A9 & _).
      assert (Nd : a_dev (n_ars n1 i) <> DevData) by congruence. destruct (A9 Nd) as [Sm _].
      rewrite Sm. apply in_del. split; [|eapply tio_not_hsm; eauto].
      unfold tm_io, p_su. cbn [a_su with_ready]. rewrite A1. cbn [a_io with_ready a_hio]. rewrite Io.
      apply in_del. split; auto.
      intros Q. destruct (v_hio I1 i Q) as [_ Q']. destruct (Q' u Hu eq_refl). auto. }
    clearbody n2. intros j Hj.
    destruct (Nat.eq_dec j i) as [->|N].
    + exists (mkTm (n_next n2) TIo i 100000). split; [cbn; now left|auto].
    + unfold io_add in Hj. cbn in Hj. rewrite upd_other in Hj by auto. rewrite O2 in Hj by auto.
      destruct (P1 j N Hj) as (u & Hu & Ku & Eu). exists u. split; auto. cbn. right. apply T2; auto. congruence.
Qed.

(** While a connection waits for its consumers to run, after the end of
    parameterisation, the next poll is pending.  So a report follows as soon
    as the poll timer expires. *)
Theorem C33_polled_while_waiting : forall m n i l,
  reachable m answers_consistently n -> since (S i) (n_tr n) = Some l ->
  In EvPrmend l -> ~ In EvData l ->
  exists t, In t (n_timers n) /\ t_kind t = TIo /\ t_ar t = i /\
    exists os b, effects m (IExpire (t_id t)) n os /\ In (OInfo i b) os.
Proof.
  intros m n i l R' Si Pe Nd. pose proof R' as R.
  assert (P : polled n).
  { destruct R as (xs & F & ->).
    assert (G : forall xs n, inv m n -> polled n -> Forall answers_consistently xs -> polled (run m xs n)).
    { induction xs0 as [|x r IH]; cbn; intros n0 I0 P0 F0; auto. inversion F0; subst.
      apply IH; auto; [apply inv_step; auto|apply polled_step; auto]. }
    apply G; auto; [apply inv_net0|]. intros j Hj. discriminate. }
  destruct (reach_inv R') as [I T].
  pose proof (since_state I (T i)) as S. rewrite Si in S. destruct S as (U & Ac).
  assert (Io : a_io (n_ars n i) = IoWdata).
  { destruct (T i) as (_ & T2 & _). destruct (T2 (proj1 Ac)) as (l' & E & W & _ & D).
    rewrite Si in E. injection E as <-.
    destruct Ac as (_ & _ & _ & A4 & _ & A6 & A7 & _). destruct A4 as [Q|[Q|Q]]; auto; exfalso.
    - apply A6 in Q. apply W in Q. auto.
    - apply A7 in Q. apply D in Q. auto. }
  destruct (P i Io) as (t & Ht & K & E). exists t. split; auto. split; auto. split; auto.
  unfold effects. cbn [step]. unfold expire.
  destruct (find (fun u => t_id u =? t_id t) (n_timers n)) as [u|] eqn:F.
  2:{ exfalso. apply (@find_none _ _ _ F) in Ht. rewrite Nat.eqb_refl in Ht. discriminate. }
  apply find_some in F. destruct F as [Hu Eu]. apply Nat.eqb_eq in Eu.
  assert (u = t) by (eapply timer_unique; eauto; apply (v_nodup I)). subst u.
  rewrite K, E. set (n1 := settimers _ n).
  unfold cmio_expired. change (n_ars n1 i) with (n_ars n i). rewrite Io.
  destruct Ac as (A1 & _ & _ & _ & _ & _ & _ & _ & _ & _ & _ & A12). rewrite (A12 Io).
  set (b := data_possible (n_ars n i)).
  assert (Q : exists os, n_tr (cmio_info i b n1) = os ++ OInfo i b :: n_tr n).
  { unfold cmio_info. cbn [emit n_ars].
    destruct (a_dev (n_ars n1 i)); try (exists []; reflexivity).
    destruct b; [|exists []; reflexivity]. unfold set_dev. cbn [setar n_tr].
    assert (Ne : EvData <> EvAbort) by discriminate.
    match goal with |- exists os, n_tr (state_ind i EvData ?z) = _ => pose proof (event_delta i z Ne) as D end.
    rewrite (d_tr D). eexists. reflexivity. }
  destruct Q as (os & Q). exists (os ++ [OInfo i b]), b. split.
  - unfold io_add. cbn [add_timer setar n_tr]. rewrite Q, <- app_assoc. reflexivity.
  - apply in_app_iff. right. now left.
Qed.
Print Assumptions C30_supervised_while_starting.
Print Assumptions C30_not_supervised_otherwise.
Print Assumptions C30_expiry_aborts.
Print Assumptions C30_never_aborts_data_exchange.
Print Assumptions C30_requests_restart_supervision.
Print Assumptions C30_armed_with_requested_time.
Print Assumptions C31_written_only_if_permitted.
Print Assumptions C31_permitted_is_written.
Print Assumptions C33_report_is_right.
Print Assumptions C33_data_only_when_possible.
Print Assumptions C33_stop_aborts.
Print Assumptions C33_running_keeps.
Print Assumptions C33_polled_while_waiting.
