(** Decomposition of every step of CmModel.v into small transitions between
    states in which no call is in progress, and the structural invariant that
    these transitions preserve. *)

From Coq Require Import List Arith Bool ZArith Lia.
From Verif Require Import Base CmModel CmSpec CmLemmas.
Import ListNotations.
Set Implicit Arguments.
Open Scope nat_scope.

Definition aborted (i : nat) (n n' : net) : Prop :=
  let a := n_ars n i in
  let order' := match a_arep a with O => n_order n | S j => remove_first j (n_order n) end in
  (forall k, n_ars n' k = upd (n_ars n) i ar0 k) /\
  n_order n' = order' /\
  n_subs n' = fst (clear_subs n i order') /\
  n_timers n' = match a_sm a with SmRun => del_timer (a_hsm a) (n_timers n) | SmIdle => n_timers n end /\
  n_next n' = n_next n /\
  n_tr n' = snd (clear_subs n i order') ++ tr_su i EvAbort a ++ OEvent (a_arep a) EvAbort :: n_tr n.

(** Observations that are not events, reports or indications. *)
Definition quiet (o : obs) : Prop :=
  match o with
  | OReleased _ _ | OPlugAlarm _ _ _ | OPullAlarm _ _ | ORefused _ => True
  | _ => False
  end.

Definition same_ars (n n' : net) : Prop := forall k, n_ars n' k = n_ars n k.

Definition started_ar (max_ar i : nat) (q : connreq) (id : nat) : ar :=
  mkAr true (S i) (q_uuid q) WPeind SuStartup IoStartup false WrStartup SmRun PbIdle
       false false (q_legacy q) (q_backup q)
       (map (fun k => mkIocr k false) (q_kinds q)) (q_exp q) (q_factor q) (Some id) None.
Definition wcind_ar (i : nat) (q : connreq) : ar :=
  mkAr true (S i) (q_uuid q) WCind SuIdle IoIdle false WrIdle SmIdle PbIdle
       false false (q_legacy q) (q_backup q)
       (map (fun k => mkIocr k false) (q_kinds q)) (q_exp q) (q_factor q) None None.

(** What is known about the input that causes the transitions.
    e_own: DControl requests arrive in the session of their connection;
    e_in: the possible inputs. *)
Record env := mkEnv { e_own : bool; e_in : input -> Prop }.
Definition e_ok (own : env) (q : connreq) : Prop := e_in own (IConnect q).

(** How the sub-slots may change while the connections stay as they are. *)
Inductive subs_step (own : env) (n : net) : list subslot -> Prop :=
| SS_same : subs_step own n (n_subs n)
| SS_claim : forall i q, e_ok own q -> q_check q = false -> a_use (n_ars n i) = false ->
    subs_step own n (claim i (q_claims q) (n_subs n))
| SS_plug : forall k mm id, subs_step own n (n_subs (plug k mm id n))
| SS_pull : forall k, subs_step own n (n_subs (pull k n)).

Inductive atom (max_ar : nat) (own : env) (n n' : net) : Prop :=
| A_quiet (os : list obs)
    (Q1 : same_ars n n') (Q2 : n_order n' = n_order n) (Q3 : subs_step own n (n_subs n'))
    (Q4 : n_timers n' = n_timers n) (Q5 : n_next n' = n_next n)
    (Q6 : n_tr n' = os ++ n_tr n) (Q7 : Forall quiet os)
| A_write (i : nat) (k : key) (ix : Z)
    (G1 : n' = emit (OWrite i k ix) n) (G2 : e_in own (IWrite i k ix))
| A_failed (i : nat) (q : connreq) (k : nat)
    (F0 : a_use (n_ars n i) = false) (F00 : i < max_ar)
    (F1 : same_ars n n') (F2 : n_order n' = n_order n)
    (F3 : n_subs n' = claim i (q_claims q) (n_subs n))
    (F4 : n_timers n' = n_timers n) (F5 : n_next n' = n_next n)
    (F6 : n_tr n' = ORefused (Some i)
            :: cr_obs (su_open i) 0 (firstn k (map (fun k => mkIocr k false) (q_kinds q)))
            ++ n_tr n)
    (F7 : q_start q = false) (F8 : e_ok own q)
| A_abort (i : nat) (Hu : a_use (n_ars n i) = true) (Ha : aborted i n n')
| A_start (i : nat) (q : connreq)
    (S0 : a_use (n_ars n i) = false) (S00 : i < max_ar)
    (S1 : forall k, n_ars n' k = upd (n_ars n) i (started_ar max_ar i q (n_next n)) k)
    (S2 : n_order n' = n_order n ++ [i])
    (S3 : n_subs n' = claim i (q_claims q) (n_subs n))
    (S4 : n_timers n' = mkTm (n_next n) TSm i (u32 (q_factor q * 100 * 1000)) :: n_timers n)
    (S5 : n_next n' = S (n_next n))
    (S6 : n_tr n' = OConnected i :: OEvent (S i) EvStartup :: OAlarmOpen i
                    :: cr_obs (su_open i) 0 (map (fun k => mkIocr k false) (q_kinds q))
                    ++ n_tr n)
    (S7 : q_start q = true /\ q_check q = true) (S8 : e_ok own q)
    (S9 : forall j, a_use (n_ars n j) = true -> a_uuid (n_ars n j) <> q_uuid q)
| A_wcind (i : nat) (q : connreq)
    (W0 : a_use (n_ars n i) = false) (W00 : i < max_ar)
    (W1 : forall k, n_ars n' k = upd (n_ars n) i (wcind_ar i q) k)
    (W2 : n_order n' = n_order n ++ [i])
    (W3 : n_subs n' = claim i (q_claims q) (n_subs n))
    (W4 : n_timers n' = n_timers n)
    (W5 : n_next n' = n_next n)
    (W6 : n_tr n' = OConnected i :: n_tr n)
    (W7 : q_check q = false /\ q_err q = false) (W8 : e_ok own q)
    (W9 : forall j, a_use (n_ars n j) = true -> a_uuid (n_ars n j) <> q_uuid q)
| A_dev (i : nat) (d : cmdev_st)
    (D0 : a_use (n_ars n i) = true)
    (D1 : (a_dev (n_ars n i) = WPeind /\ d = WArdy /\ e_own own = false) \/
          (a_dev (n_ars n i) = WArdy /\ d = WArdycnf /\ a_wrr (n_ars n i) <> WrPrmend) \/
          (a_dev (n_ars n i) = WArdycnf /\ d = WData))
    (D2 : delta i n n' (with_dev d (n_ars n i)) (n_timers n) (n_next n) [])
| A_event (i : nat) (e : event)
    (E0 : a_use (n_ars n i) = true)
    (E1 : (e = EvPrmend /\ e_own own = false) \/ (e = EvApplrdy /\ a_dev (n_ars n i) = WArdy))
    (E2 : delta i n n' (p_all e (n_next n) (n_ars n i))
            (tm_all e i (n_next n) (n_ars n i) (n_timers n))
            (nx_all e (n_next n) (n_ars n i))
            (tr_su i e (n_ars n i) ++ [OEvent (a_arep (n_ars n i)) e]))
| A_prmend (i : nat)
    (M0 : a_use (n_ars n i) = true) (M1 : a_dev (n_ars n i) = WPeind)
    (M2 : delta i n n' (p_all EvPrmend (n_next n) (with_dev WArdy (n_ars n i)))
            (tm_all EvPrmend i (n_next n) (with_dev WArdy (n_ars n i)) (n_timers n))
            (nx_all EvPrmend (n_next n) (with_dev WArdy (n_ars n i)))
            (tr_su i EvPrmend (n_ars n i) ++ [OEvent (a_arep (n_ars n i)) EvPrmend]))
| A_data (i : nat)
    (T0 : a_use (n_ars n i) = true)
    (T1 : a_dev (n_ars n i) = WArdycnf \/ a_dev (n_ars n i) = WData)
    (T2 : a_ready (n_ars n i) = true)
    (T3 : delta i n n' (with_dev DevData (p_all EvData (n_next n) (n_ars n i)))
            (tm_all EvData i (n_next n) (n_ars n i) (n_timers n))
            (nx_all EvData (n_next n) (n_ars n i))
            (tr_su i EvData (n_ars n i) ++ [OEvent (a_arep (n_ars n i)) EvData]))
| A_info (i : nat)
    (I0 : a_use (n_ars n i) = true)
    (I1 : a_io (n_ars n i) = IoWdata) (I3 : exists id, e_in own (IExpire id))
    (I2 : delta i n n'
            (match a_dev (n_ars n i) with
             | WArdy | WArdycnf | WData =>
                 with_ready (data_possible (n_ars n i)) (n_ars n i)
             | _ => n_ars n i
             end) (n_timers n) (n_next n) [OInfo i (data_possible (n_ars n i))])
| A_ind (i c : nat) (b : bool)
    (N0 : a_use (n_ars n i) = true)
    (N2 : e_in own (ICpmState i c b) \/ e_in own (ICpmNewData i c b))
    (N1 : delta i n n'
            (match a_io (n_ars n i) with
             | IoWdata => with_crs (set_start c b (a_crs (n_ars n i))) (n_ars n i)
             | _ => n_ars n i
             end) (n_timers n) (n_next n) [OInd i c b])
| A_restart (i : nat)
    (R0 : a_use (n_ars n i) = true) (R1 : a_sm (n_ars n i) = SmRun)
    (R2 : delta i n n' (with_sm SmRun (Some (n_next n)) (n_ars n i))
            (sm_timer i (n_next n) (n_ars n i)
               :: del_timer (a_hsm (n_ars n i)) (n_timers n))
            (S (n_next n)) [])
| A_ioexp (t : timer)
    (X0 : In t (n_timers n)) (X1 : t_kind t = TIo) (X3 : e_in own (IExpire (t_id t)))
    (X2 : n' = settimers (del_timer (Some (t_id t)) (n_timers n)) n)
| A_ioadd (i : nat)
    (Y0 : a_use (n_ars n i) = true) (Y00 : a_io (n_ars n i) <> IoIdle)
    (Y1 : delta i n n' (with_hio (Some (n_next n)) (n_ars n i))
            (mkTm (n_next n) TIo i 100000 :: n_timers n) (S (n_next n)) [])
| A_iooff (i : nat)
    (Z0 : ~ (a_io (n_ars n i) = IoWdata /\ a_resched (n_ars n i) = true))
    (Z1 : delta i n n' (with_hio None (with_io (a_io (n_ars n i)) false (n_ars n i)))
            (n_timers n) (n_next n) [])
| A_pbe (i : nat)
    (B0 : a_use (n_ars n i) = true) (B1 : a_dev (n_ars n i) = DevData)
    (B2 : a_pbe (n_ars n i) = PbWfind)
    (B3 : delta i n n' (with_pbe PbWfrsp false (n_ars n i)) (n_timers n) (n_next n) []).

Inductive path (max_ar : nat) (own : env) : net -> net -> Prop :=
| P_nil : forall n, path max_ar own n n
| P_cons : forall n n1 n2,
    atom max_ar own n n1 -> path max_ar own n1 n2 -> path max_ar own n n2.

Lemma path_one : forall m o n n', atom m o n n' -> path m o n n'.
Proof. intros; econstructor; [eassumption|constructor]. Qed.
Lemma path_app : forall m o n n1 n2, path m o n n1 -> path m o n1 n2 -> path m o n n2.
Proof. induction 1; intros; auto. econstructor; eauto. Qed.

(** The invariant: records that no call is in progress for. *)
Definition idle (a : ar) : Prop :=
  a_dev a = WCind /\ a_su a = SuIdle /\ a_io a = IoIdle /\ a_wrr a = WrIdle /\
  a_sm a = SmIdle /\ a_pbe a = PbIdle /\ a_stored a = false /\ a_ready a = false /\
  a_resched a = false /\ a_hsm a = None /\ a_hio a = None.

Definition active (a : ar) : Prop :=
  a_su a = SuStartup /\ a_stored a = false /\
  (a_dev a = WPeind \/ a_dev a = WArdy \/ a_dev a = WArdycnf \/ a_dev a = WData
   \/ a_dev a = DevData) /\
  (a_io a = IoStartup \/ a_io a = IoWdata \/ a_io a = IoData) /\
  (a_wrr a = WrStartup \/ a_wrr a = WrPrmend \/ a_wrr a = WrData) /\
  (a_io a = IoStartup <-> a_wrr a = WrStartup) /\
  (a_dev a = DevData <-> a_io a = IoData) /\
  (a_dev a = DevData -> a_sm a = SmIdle /\ (a_pbe a = PbWfind \/ a_pbe a = PbWfrsp)) /\
  (a_dev a <> DevData -> a_sm a = SmRun /\ a_pbe a = PbIdle) /\
  (a_ready a = true -> a_io a <> IoStartup) /\
  (a_io a = IoStartup -> forall c, In c (a_crs a) -> io_start c = false) /\
  (a_io a = IoWdata -> a_resched a = true).

Definition arinv (max_ar : nat) (i : nat) (a : ar) : Prop :=
  a = ar0 \/
  (a_use a = true /\ i < max_ar /\ a_arep a = S i /\ (idle a \/ active a)).

Record inv (max_ar : nat) (n : net) : Prop := {
  v_ar : forall i, arinv max_ar i (n_ars n i);
  v_nodup : NoDup (map t_id (n_timers n));
  v_fresh : forall t, In t (n_timers n) -> t_id t < n_next n;
  v_sm : forall t, In t (n_timers n) -> t_kind t = TSm ->
           a_use (n_ars n (t_ar t)) = true /\ a_sm (n_ars n (t_ar t)) = SmRun /\
           a_hsm (n_ars n (t_ar t)) = Some (t_id t) /\
           t_delay t = u32 (a_factor (n_ars n (t_ar t)) * 100 * 1000);
  v_run : forall i, a_sm (n_ars n i) = SmRun ->
           exists t, In t (n_timers n) /\ t_kind t = TSm /\ t_ar t = i;
  v_hsm : forall i, a_sm (n_ars n i) = SmIdle -> a_hsm (n_ars n i) = None;
  v_hio : forall i id, a_hio (n_ars n i) = Some id ->
           id < n_next n /\
           (forall t, In t (n_timers n) -> t_id t = id -> t_kind t = TIo /\ t_ar t = i);
  v_order : NoDup (n_order n);
  v_order_use : forall i, In i (n_order n) <-> a_use (n_ars n i) = true
}.

Lemma in_del : forall h l t,
  In t (del_timer h l) <-> In t l /\ h <> Some (t_id t).
Proof.
  intros [k|] l t; cbn.
  - rewrite filter_In, negb_true_iff, Nat.eqb_neq. intuition congruence.
  - intuition congruence.
Qed.
Lemma nodup_del : forall h l, NoDup (map t_id l) -> NoDup (map t_id (del_timer h l)).
Proof.
  intros [k|] l H; cbn; auto.
  induction l as [|t r IH]; cbn in *; auto. inversion H; subst.
  destruct (negb (t_id t =? k)); cbn; auto. constructor; auto.
  intros HI. apply H2. apply in_map_iff in HI. destruct HI as (x & E & HI).
  apply filter_In in HI. rewrite <- E. apply in_map. tauto.
Qed.

Lemma remove_first_notin : forall x l, NoDup l -> ~ In x (remove_first x l).
Proof.
  induction l as [|y r IH]; cbn; intros H; auto. inversion H; subst.
  destruct (Nat.eqb_spec y x); subst; auto. intros [E|E]; congruence || (apply IH; auto).
Qed.
Lemma remove_first_in : forall x l y, y <> x -> (In y (remove_first x l) <-> In y l).
Proof.
  induction l as [|z r IH]; cbn; intros y Hy; [tauto|].
  destruct (Nat.eqb_spec z x); subst; cbn.
  - intuition congruence.
  - rewrite IH by auto. tauto.
Qed.
Lemma remove_first_nodup : forall x l, NoDup l -> NoDup (remove_first x l).
Proof.
  induction l as [|z r IH]; cbn; intros H; auto. inversion H; subst.
  destruct (Nat.eqb_spec z x); auto. constructor; auto.
  rewrite remove_first_in; auto.
Qed.
Lemma remove_first_app : forall x l, ~ In x l -> remove_first x (l ++ [x]) = l.
Proof.
  induction l as [|z r IH]; cbn; intros H.
  - now rewrite Nat.eqb_refl.
  - destruct (Nat.eqb_spec z x); [tauto|]. rewrite IH; tauto.
Qed.

Lemma timer_unique : forall l (t u : timer),
  NoDup (map t_id l) -> In t l -> In u l -> t_id t = t_id u -> t = u.
Proof.
  induction l as [|y r IH]; cbn; intros t u N Ht Hu E; [tauto|].
  inversion N; subst. destruct Ht as [->|Ht], Hu as [->|Hu]; auto.
  - exfalso. apply H1. rewrite E. now apply in_map.
  - exfalso. apply H1. rewrite <- E. now apply in_map.
Qed.

(** The invariant is preserved when one AR changes within its state. *)
Lemma inv_same : forall m n n',
  inv m n -> same_ars n n' -> n_order n' = n_order n ->
  n_timers n' = n_timers n -> n_next n' = n_next n -> inv m n'.
Proof.
  intros m n n' [H1 H2 H3 H4 H5 H6 H7 H8 H9] S O T X.
  constructor; rewrite ?T, ?X, ?O; auto; intros; rewrite ?S in *; eauto.
Qed.

(** Changes that keep timers and handles. *)
Lemma inv_local : forall m n n' i a' os,
  inv m n -> a_use (n_ars n i) = true ->
  delta i n n' a' (n_timers n) (n_next n) os ->
  (active (n_ars n i) -> active a') -> (idle (n_ars n i) -> idle a' \/ active a') ->
  a_use a' = true -> a_arep a' = a_arep (n_ars n i) ->
  a_sm a' = a_sm (n_ars n i) -> a_hsm a' = a_hsm (n_ars n i) ->
  a_hio a' = a_hio (n_ars n i) -> a_factor a' = a_factor (n_ars n i) ->
  inv m n'.
Proof.
  intros m n n' i a' os [H1 H2 H3 H4 H5 H6 H7 H8 H9] U [A B C D E F G] Act Idl Use Ar Sm Hs Hi Fa.
  assert (Q : forall k, a_use (n_ars n' k) = a_use (n_ars n k) /\
                        a_sm (n_ars n' k) = a_sm (n_ars n k) /\
                        a_hsm (n_ars n' k) = a_hsm (n_ars n k) /\
                        a_factor (n_ars n' k) = a_factor (n_ars n k) /\
                        a_hio (n_ars n' k) = a_hio (n_ars n k)).
  { intros k. destruct (Nat.eq_dec k i) as [->|N]; [rewrite B|rewrite A by auto]; auto.
    rewrite Use, U. repeat split; auto. }
  constructor; rewrite ?E, ?F, ?C; auto.
  - intros k. destruct (Nat.eq_dec k i) as [->|N]; [rewrite B|rewrite A by auto; auto].
    destruct (H1 i) as [Z|(Z1 & Z2 & Z3 & Z4)].
    + rewrite Z in U. discriminate.
    + right. repeat split; auto; try congruence. tauto.
  - intros t Ht K. destruct (Q (t_ar t)) as (Q1 & Q2 & Q3 & Q4 & Q5).
    rewrite Q1, Q2, Q3, Q4. auto.
  - intros k K. destruct (Q k) as (Q1 & Q2 & Q3 & Q4 & Q5). rewrite Q2 in K. auto.
  - intros k K. destruct (Q k) as (Q1 & Q2 & Q3 & Q4 & Q5). rewrite Q2 in K.
    rewrite Q3; auto.
  - intros k id K. destruct (Q k) as (Q1 & Q2 & Q3 & Q4 & Q5). rewrite Q5 in K. eauto.
  - intros k. destruct (Q k) as (Q1 & _). rewrite Q1. apply H9.
Qed.

Ltac kill := repeat match goal with
  | H : _ /\ _ |- _ => destruct H
  | H : ?x = ?x |- _ => clear H
  end.

Lemma inv_use : forall m n i, inv m n -> a_use (n_ars n i) = true ->
  i < m /\ a_arep (n_ars n i) = S i /\ (idle (n_ars n i) \/ active (n_ars n i)).
Proof.
  intros m n i H U. destruct (v_ar H i) as [Z|(Z1 & Z2 & Z3 & Z4)].
  - rewrite Z in U. discriminate.
  - auto.
Qed.
Lemma inv_nouse : forall m n i, inv m n -> a_use (n_ars n i) = false -> n_ars n i = ar0.
Proof.
  intros m n i H U. destruct (v_ar H i) as [Z|(Z1 & _)]; congruence.
Qed.

Lemma inv_abort : forall m n n' i,
  inv m n -> a_use (n_ars n i) = true -> aborted i n n' -> inv m n'.
Proof.
  intros m n n' i I U (A & O & S & T & X & TR).
  destruct (inv_use _ I U) as (Lt & Ar & _).
  rewrite Ar in O.
  assert (TT : forall t, In t (n_timers n') -> In t (n_timers n) /\
                (t_kind t = TSm -> t_ar t <> i)).
  { intros t Ht. rewrite T in Ht. destruct (a_sm (n_ars n i)) eqn:Sm.
    - split; auto. intros K E. destruct (v_sm I t Ht K) as (_ & K2 & _).
      rewrite E in K2. congruence.
    - apply in_del in Ht. destruct Ht as [Ht N]. split; auto.
      intros K E. destruct (v_sm I t Ht K) as (_ & _ & K3 & _). rewrite E in K3. congruence. }
  assert (TN : NoDup (map t_id (n_timers n'))).
  { rewrite T. destruct (a_sm (n_ars n i)); [apply (v_nodup I)|apply nodup_del, (v_nodup I)]. }
  destruct I as [H1 H2 H3 H4 H5 H6 H7 H8 H9].
  constructor; auto.
  - intros k. rewrite A. unfold upd. destruct (Nat.eqb_spec k i); [left; reflexivity|auto].
  - intros t Ht. rewrite X. apply H3. apply TT; auto.
  - intros t Ht K. destruct (TT t Ht) as [Ht' N]. rewrite A, upd_other by auto. auto.
  - intros k K. rewrite A in K. unfold upd in K. destruct (Nat.eqb_spec k i); [discriminate|].
    destruct (H5 k K) as (t & Ht & Kt & Et). exists t. split; auto. rewrite T.
    destruct (a_sm (n_ars n i)) eqn:Sm; auto. apply in_del. split; auto.
    intros E. destruct (H5 i Sm) as (t' & Ht' & Kt' & Et').
    destruct (H4 t' Ht' Kt') as (_ & _ & Q & _). rewrite Et' in Q. 
    assert (t_id t' = t_id t) by congruence.
    destruct (H4 t Ht Kt) as (_ & _ & Q' & _).
    assert (t' = t).
    { apply (@timer_unique (n_timers n)); auto. }
    subst. congruence.
  - intros k K. rewrite A in *. unfold upd in *. destruct (Nat.eqb_spec k i); auto.
  - intros k id K. rewrite A in K. unfold upd in K. destruct (Nat.eqb_spec k i); [discriminate|].
    destruct (H7 k id K) as [L Q]. rewrite X. split; auto. intros t Ht. apply Q. apply TT; auto.
  - rewrite O. apply remove_first_nodup; auto.
  - intros k. rewrite O, A. destruct (Nat.eq_dec k i) as [->|N].
    + rewrite upd_same. cbn. split; [|discriminate]. intros K.
      exfalso. revert K. apply remove_first_notin; auto.
    + rewrite upd_other, remove_first_in by auto. apply H9.
Qed.

Lemma inv_dev : forall m n n' i d, inv m n -> a_use (n_ars n i) = true ->
  ((a_dev (n_ars n i) = WPeind /\ d = WArdy) \/
   (a_dev (n_ars n i) = WArdy /\ d = WArdycnf) \/
   (a_dev (n_ars n i) = WArdycnf /\ d = WData)) ->
  delta i n n' (with_dev d (n_ars n i)) (n_timers n) (n_next n) [] -> inv m n'.
Proof.
  intros m n n' i d I D0 D1 D2.
    assert (NI : ~ idle (n_ars n i)).
    { intros (Q & _). destruct D1 as [[D1 _]|[[D1 _]|[D1 _]]]; congruence. }
    eapply inv_local; eauto; try reflexivity; [|tauto].
    unfold active. cbn. intros (X1 & X2 & X3 & X4 & X5 & X6 & X7 & X8 & X9 & X10 & X11 & X12).
    assert (Nd : a_dev (n_ars n i) <> DevData /\ d <> DevData /\
                 (d = WArdy \/ d = WArdycnf \/ d = WData)).
    { destruct D1 as [[Q ->]|[[Q ->]|[Q ->]]]; rewrite Q; repeat split; auto; discriminate. }
    destruct Nd as (Nd1 & Nd2 & Nd3).
    refine (conj X1 (conj X2 (conj _ (conj X4 (conj X5 (conj X6 (conj _ (conj _ (conj _ (conj X10 (conj X11 X12))))))))))).
    + destruct Nd3 as [->|[->| ->]]; auto.
    + split; [intros Q; congruence|]. intros Q. apply X7 in Q. congruence.
    + intros Q; congruence.
    + intros _. apply X9. exact Nd1.
Qed.

Lemma inv_event : forall m n n' i e, inv m n -> a_use (n_ars n i) = true ->
  (e = EvPrmend \/ (e = EvApplrdy /\ a_dev (n_ars n i) = WArdy)) ->
  delta i n n' (p_all e (n_next n) (n_ars n i))
            (tm_all e i (n_next n) (n_ars n i) (n_timers n))
            (nx_all e (n_next n) (n_ars n i))
            (tr_su i e (n_ars n i) ++ [OEvent (a_arep (n_ars n i)) e]) -> inv m n'.
Proof.
  intros m n n' i e I E0 E1 E2.
    destruct (inv_use _ I E0) as (Lt & Ar & St).
    set (a := n_ars n i) in *.
    destruct E1 as [->|[-> Ed]].
    + (* PRMEND *)
      destruct St as [Id|Ac].
      * destruct Id as (Q1 & Q2 & Q3 & Q4 & Q5 & Q6 & Q7 & Q8 & Q9 & Q10 & Q11).
        assert (P : p_all EvPrmend (n_next n) a = a).
        { unfold p_all, p_su. rewrite Q2. unfold p_io. rewrite Q3. unfold p_wrr. rewrite Q4.
          unfold p_sm. rewrite Q5. unfold p_pbe. rewrite Q6. reflexivity. }
        assert (T : tm_all EvPrmend i (n_next n) a (n_timers n) = n_timers n /\
                    nx_all EvPrmend (n_next n) a = n_next n).
        { unfold tm_all, nx_all, p_su. rewrite Q2. unfold p_io, nx_io, tm_io. rewrite Q3.
          unfold p_wrr. rewrite Q4. unfold tm_sm, nx_sm. rewrite Q5. auto. }
        destruct T as [T X]. rewrite P, T, X in E2.
        eapply inv_local; eauto.
      * destruct Ac as (X1 & X2 & X3 & X4 & X5 & X6 & X7 & X8 & X9 & X10 & X11 & X12).
        assert (Su : p_su EvPrmend a = a) by (unfold p_su; now rewrite X1).
        assert (Hp : p_all EvPrmend (n_next n) a =
                   match a_io a with
                   | IoStartup => with_io IoWdata true (with_hio (Some (n_next n)) (with_wrr WrPrmend a))
                   | _ => a
                   end).
        { unfold p_all. rewrite Su. unfold p_io. destruct X4 as [Y|[Y|Y]]; rewrite Y.
          - unfold p_wrr; cbn. rewrite (proj1 X6 Y). unfold p_sm; cbn.
            destruct (a_sm a); unfold p_pbe; cbn; destruct (a_pbe a); reflexivity.
          - unfold p_wrr. destruct X5 as [V|[V|V]]; [apply X6 in V; congruence| |]; rewrite V;
            unfold p_sm; destruct (a_sm a); unfold p_pbe; destruct (a_pbe a); reflexivity.
          - unfold p_wrr. destruct X5 as [V|[V|V]]; [apply X6 in V; congruence| |]; rewrite V;
            unfold p_sm; destruct (a_sm a); unfold p_pbe; destruct (a_pbe a); reflexivity. }
        assert (Ht : tm_all EvPrmend i (n_next n) a (n_timers n) =
                    match a_io a with
                    | IoStartup => mkTm (n_next n) TIo i 100000 :: n_timers n
                    | _ => n_timers n end /\
                    nx_all EvPrmend (n_next n) a =
                    match a_io a with IoStartup => S (n_next n) | _ => n_next n end).
        { unfold tm_all, nx_all. rewrite Su. unfold tm_io, nx_io, tm_sm, nx_sm.
          destruct (a_io a); destruct (a_sm (p_wrr EvPrmend (p_io EvPrmend (n_next n) a))); auto. }
        destruct Ht as [Ht Hx]. rewrite Hp, Ht, Hx in E2.
        destruct X4 as [Y|Y].
        2:{ assert (Q : a_io a <> IoStartup) by (destruct Y; congruence).
            replace (match a_io a with
                     | IoStartup => with_io IoWdata true (with_hio (Some (n_next n)) (with_wrr WrPrmend a))
                     | _ => a end) with a in E2 by (destruct (a_io a); congruence).
            replace (match a_io a with
                     | IoStartup => mkTm (n_next n) TIo i 100000 :: n_timers n
                     | _ => n_timers n end) with (n_timers n) in E2 by (destruct (a_io a); congruence).
            replace (match a_io a with IoStartup => S (n_next n) | _ => n_next n end)
              with (n_next n) in E2 by (destruct (a_io a); congruence).
            eapply inv_local; eauto. }
        rewrite Y in E2. clear Hp Ht Hx.
        destruct E2 as [A B C D E F G].
        pose proof I as [H1 H2 H3 H4 H5 H6 H7 H8 H9].
        assert (Qk : forall k, a_use (n_ars n' k) = a_use (n_ars n k) /\
                        a_sm (n_ars n' k) = a_sm (n_ars n k) /\
                        a_hsm (n_ars n' k) = a_hsm (n_ars n k) /\
                        a_factor (n_ars n' k) = a_factor (n_ars n k)).
        { intros k. destruct (Nat.eq_dec k i) as [->|N]; [rewrite B|rewrite A by auto]; auto. }
        constructor; rewrite ?E, ?F, ?C; auto.
        -- intros k. destruct (Nat.eq_dec k i) as [->|N]; [rewrite B|rewrite A by auto; auto].
           right. split; auto. split; auto. split; [exact Ar|]. right. unfold active; cbn.
           refine (conj X1 (conj X2 (conj X3 (conj _ (conj _ (conj _ (conj _ (conj X8 (conj X9 (conj _ (conj _ _))))))))))); auto; try discriminate.
           ++ split; discriminate.
           ++ split; [intros K; apply X7 in K; congruence|discriminate].
        -- cbn. constructor; auto. intros K. apply in_map_iff in K. destruct K as (t & Et & Ht).
           apply H3 in Ht. lia.
        -- intros t [<-|Ht]; cbn; [lia|]. apply H3 in Ht. lia.
        -- intros t [<-|Ht] K; cbn in *; [discriminate|].
           destruct (Qk (t_ar t)) as (Q1 & Q2 & Q3 & Q4). rewrite Q1, Q2, Q3, Q4. auto.
        -- intros k K. destruct (Qk k) as (Q1 & Q2 & Q3 & Q4). rewrite Q2 in K.
           destruct (H5 k K) as (t & Ht & Q). exists t. split; [now right|auto].
        -- intros k K. destruct (Qk k) as (Q1 & Q2 & Q3 & Q4). rewrite Q2 in K. rewrite Q3; auto.
        -- intros k id K. destruct (Nat.eq_dec k i) as [->|N].
           ++ rewrite B in K. cbn in K. injection K as <-. split; [lia|].
              intros t [<-|Ht] Et; auto. apply H3 in Ht. lia.
           ++ rewrite A in K by auto. destruct (H7 k id K) as [L Q]. split; [lia|].
              intros t [<-|Ht] Et; [exfalso; cbn in Et; lia|auto].
        -- intros k. destruct (Qk k) as (Q1 & _). rewrite Q1. apply H9.
    + (* APPLRDY *)
      destruct St as [(Q1 & _)|Ac]; [congruence|].
      destruct Ac as (X1 & X2 & X3 & X4 & X5 & X6 & X7 & X8 & X9 & X10 & X11 & X12).
      assert (Hp : p_all EvApplrdy (n_next n) a =
                   match a_wrr a with WrPrmend => with_wrr WrData a | _ => a end).
      { unfold p_all, p_su. rewrite X1. unfold p_io.
        destruct (a_io a); unfold p_wrr; destruct (a_wrr a); unfold p_sm; cbn;
          destruct (a_sm a); unfold p_pbe; cbn; destruct (a_pbe a); reflexivity. }
      assert (Ht : tm_all EvApplrdy i (n_next n) a (n_timers n) = n_timers n /\
                   nx_all EvApplrdy (n_next n) a = n_next n).
      { unfold tm_all, nx_all, tm_io, nx_io, tm_sm, nx_sm.
        destruct (a_io (p_su EvApplrdy a));
          destruct (a_sm (p_wrr EvApplrdy (p_io EvApplrdy (n_next n) (p_su EvApplrdy a)))); auto. }
      destruct Ht as [Ht Hx]. rewrite Hp, Ht, Hx in E2.
      assert (Act : active a).
      { unfold active; auto 20. }
      eapply inv_local; eauto; try (destruct (a_wrr a); reflexivity || assumption);
        [|intros (Q & _); fold a in Q; congruence].
      { intros _. destruct (a_wrr a) eqn:V; auto. unfold active; cbn.
        assert (a_io a <> IoStartup) by (intros K; apply X6 in K; congruence).
        refine (conj X1 (conj X2 (conj X3 (conj X4 (conj _ (conj _ (conj X7 (conj X8 (conj X9 (conj X10 (conj X11 X12))))))))))); auto.
        split; [tauto|discriminate]. }
Qed.

Lemma inv_atom : forall m own n n', inv m n -> atom m own n n' -> inv m n'.
Proof.
  intros m own n n' I At. destruct At.
  - eapply inv_same; eauto.
  - subst. eapply inv_same; eauto. intros j; reflexivity.
  - eapply inv_same; eauto.
  - eapply inv_abort; eauto.
  - (* start *)
    pose proof (inv_nouse _ I S0) as Z.
    pose proof I as [H1 H2 H3 H4 H5 H6 H7 H8 H9].
    constructor; rewrite ?S4, ?S5, ?S2.
    + intros k. rewrite S1. unfold upd. destruct (Nat.eqb_spec k i); [subst|auto].
      right. split; [reflexivity|]. split; auto. split; [reflexivity|]. right.
      unfold active; cbn. split; auto. split; auto. split; auto. split; auto. split; auto.
      split; [tauto|]. split; [split; discriminate|]. split; [discriminate|].
      split; [auto|]. split; [discriminate|]. split; [|discriminate].
      intros _ c Hc. apply in_map_iff in Hc. destruct Hc as (x & <- & _). reflexivity.
    + cbn. constructor; auto. intros K. apply in_map_iff in K. destruct K as (t & E & Ht).
      apply H3 in Ht. lia.
    + intros t [<-|Ht]; cbn; [lia|]. apply H3 in Ht. lia.
    + intros t [<-|Ht] K; cbn.
      * rewrite S1, upd_same. cbn. auto.
      * destruct (H4 t Ht K) as (Q1 & Q2). assert (t_ar t <> i) by congruence.
        rewrite S1, upd_other by auto. auto.
    + intros k K. rewrite S1 in K. unfold upd in K. destruct (Nat.eqb_spec k i).
      * subst. eexists. split; [left; reflexivity|]. auto.
      * destruct (H5 k K) as (t & Ht & Q). exists t. split; [now right|auto].
    + intros k K. rewrite S1 in *. unfold upd in *. destruct (Nat.eqb_spec k i); auto.
      discriminate.
    + intros k id K. rewrite S1 in K. unfold upd in K. destruct (Nat.eqb_spec k i); [discriminate|].
      destruct (H7 k id K) as [L Q]. split; [lia|]. intros t [<-|Ht] E; cbn in *; [lia|auto].
    + apply NoDup_rev in H8. rewrite <- (rev_involutive (n_order n ++ [i])).
      apply NoDup_rev. rewrite rev_app_distr. cbn. constructor; auto.
      rewrite <- in_rev, H9. congruence.
    + intros k. rewrite in_app_iff, S1. unfold upd. destruct (Nat.eqb_spec k i).
      * subst. cbn. tauto.
      * rewrite <- H9. cbn. intuition congruence.
  - (* wcind *)
    pose proof (inv_nouse _ I W0) as Z.
    pose proof I as [H1 H2 H3 H4 H5 H6 H7 H8 H9].
    constructor; rewrite ?W4, ?W5, ?W2; auto.
    + intros k. rewrite W1. unfold upd. destruct (Nat.eqb_spec k i); [subst|auto].
      right. split; [reflexivity|]. split; auto. split; [reflexivity|]. left.
      unfold idle; cbn. tauto.
    + intros t Ht K. destruct (H4 t Ht K) as (Q1 & Q2). assert (t_ar t <> i) by congruence.
        rewrite W1, upd_other by auto. auto.
    + intros k K. rewrite W1 in K. unfold upd in K. destruct (Nat.eqb_spec k i); auto.
      discriminate.
    + intros k K. rewrite W1 in *. unfold upd in *. destruct (Nat.eqb_spec k i); auto.
    + intros k id K. rewrite W1 in K. unfold upd in K. destruct (Nat.eqb_spec k i); [discriminate|].
      eauto.
    + apply NoDup_rev in H8. rewrite <- (rev_involutive (n_order n ++ [i])).
      apply NoDup_rev. rewrite rev_app_distr. cbn. constructor; auto.
      rewrite <- in_rev, H9. congruence.
    + intros k. rewrite in_app_iff, W1. unfold upd. destruct (Nat.eqb_spec k i).
      * subst. cbn. tauto.
      * rewrite <- H9. cbn. intuition congruence.
  - apply (@inv_dev m n n' i d); auto. destruct D1 as [(Q1 & Q2 & _)|[(Q1 & Q2 & _)|Q]]; auto.
  - apply (@inv_event m n n' i e); auto. destruct E1 as [(Q1 & _)|Q]; auto.
  - (* prmend *)
    set (n1 := setar i (with_dev WArdy (n_ars n i)) n).
    assert (V1 : inv m n1).
    { apply (@inv_dev m n n1 i WArdy); auto. unfold n1. dlt. }
    assert (Z : n_ars n1 i = with_dev WArdy (n_ars n i)) by (unfold n1; cbn; now rewrite upd_same).
    apply (@inv_event m n1 n' i EvPrmend); auto.
    + rewrite Z. exact M0.
    + rewrite Z. destruct M2 as [A B C D E F G]. constructor; auto.
      intros k Hk. rewrite A by auto. unfold n1; cbn. now rewrite upd_other by auto.
  - (* data *)
    destruct (inv_use _ I T0) as (Lt & Ar & St).
    set (a := n_ars n i) in *.
    assert (Ac : active a).
    { destruct St as [(Q & _)|]; auto. destruct T1; congruence. }
    destruct Ac as (X1 & X2 & X3 & X4 & X5 & X6 & X7 & X8 & X9 & X10 & X11 & X12).
    assert (Nd : a_dev a <> DevData) by (destruct T1; congruence).
    destruct (X9 Nd) as [Sm Pb].
    assert (Io : a_io a = IoWdata).
    { destruct X4 as [Y|[Y|Y]]; auto; [|apply X7 in Y; congruence].
      exfalso. exact (X10 T2 Y). }
    assert (Hp : p_all EvData (n_next n) a =
                 with_pbe PbWfind false (with_sm SmIdle None (with_io IoData false (with_hio None a)))).
    { unfold p_all, p_su. rewrite X1. unfold p_io. rewrite Io. unfold p_wrr; cbn.
      destruct (a_wrr a); unfold p_sm; cbn; rewrite Sm; unfold p_pbe; cbn; rewrite Pb, X2; reflexivity. }
    assert (Ht : tm_all EvData i (n_next n) a (n_timers n) =
                 del_timer (a_hsm a) (del_timer (a_hio a) (n_timers n)) /\
                 nx_all EvData (n_next n) a = n_next n).
    { unfold tm_all, nx_all, p_su. rewrite X1. unfold p_io, tm_io, nx_io. rewrite Io.
      unfold p_wrr; cbn. destruct (a_wrr a); unfold tm_sm, nx_sm; cbn; rewrite Sm; auto. }
    destruct Ht as [Ht Hx]. rewrite Hp, Ht, Hx in T3. clear Hp Ht Hx.
    destruct T3 as [A B C D E F G].
    pose proof I as [H1 H2 H3 H4 H5 H6 H7 H8 H9].
    assert (TT : forall t, In t (n_timers n') -> In t (n_timers n) /\
                (t_kind t = TSm -> t_ar t <> i)).
    { intros t Htt. rewrite E in Htt. apply in_del in Htt. destruct Htt as [Htt N].
      apply in_del in Htt. destruct Htt as [Htt N2]. split; auto.
      intros K Et. destruct (H4 t Htt K) as (_ & _ & K3 & _). rewrite Et in K3. unfold a in *; congruence. }
    constructor; rewrite ?F, ?C; auto.
    + intros k. destruct (Nat.eq_dec k i) as [->|N]; [rewrite B|rewrite A by auto; auto].
      right. split; auto. split; auto. split; [exact Ar|]. right. unfold active; cbn.
      refine (conj X1 (conj _ (conj _ (conj _ (conj X5 (conj _ (conj _ (conj _ (conj _ (conj _ (conj _ _))))))))))); auto 10; try discriminate; try (split; auto; fail); try (intros Q; exfalso; apply Q; reflexivity).
      split; [discriminate|]. intros V. apply X6 in V. congruence.
    + rewrite E. apply nodup_del, nodup_del; auto.
    + intros t Htt. apply H3. apply TT; auto.
    + intros t Htt K. destruct (TT t Htt) as [Htt' N]. rewrite A by auto. auto.
    + intros k K. destruct (Nat.eq_dec k i) as [->|N]; [rewrite B in K; discriminate|].
      rewrite A in K by auto. destruct (H5 k K) as (t & Htt & Kt & Et). exists t.
      split; auto. rewrite E. apply in_del. split.
      * apply in_del. split; auto. intros Q. destruct (H7 i _ Q) as [_ Q2].
        rewrite (proj1 (Q2 t Htt eq_refl)) in Kt. discriminate.
      * intros Q. destruct (H5 i Sm) as (t' & Htt' & Kt' & Et').
        destruct (H4 t' Htt' Kt') as (_ & _ & Q' & _). rewrite Et' in Q'.
        assert (Eid : t_id t' = t_id t) by (fold a in Q'; congruence).
        assert (t' = t).
        { apply (@timer_unique (n_timers n)); auto. }
        subst. congruence.
    + intros k K. destruct (Nat.eq_dec k i) as [->|N]; [rewrite B; reflexivity|].
      rewrite A in * by auto. auto.
    + intros k id K. destruct (Nat.eq_dec k i) as [->|N]; [rewrite B in K; discriminate|].
      rewrite A in K by auto. destruct (H7 k id K) as [L Q]. split; auto.
      intros t Htt. apply Q. apply TT; auto.
    + intros k. destruct (Nat.eq_dec k i) as [->|N]; [rewrite B|rewrite A by auto; auto].
      cbn. apply H9.
  - (* info *)
    destruct (inv_use _ I I0) as (Lt & Ar & St).
    eapply inv_local; eauto;
      try (destruct (a_dev (n_ars n i)); reflexivity || assumption).
    + intros Ac. destruct (a_dev (n_ars n i)) eqn:Ed; auto;
      destruct Ac as (X1 & X2 & X3 & X4 & X5 & X6 & X7 & X8 & X9 & X10 & X11 & X12);
      unfold active; cbn; rewrite Ed in *;
      refine (conj X1 (conj X2 (conj _ (conj X4 (conj X5 (conj X6 (conj X7 (conj X8 (conj X9 (conj _ (conj X11 X12)))))))))));
      auto; intros _; congruence.
    + intros (Q1 & _ & Q & _). congruence.
  - (* ind *)
    destruct (inv_use _ I N0) as (Lt & Ar & St).
    eapply inv_local; eauto;
      try (destruct (a_io (n_ars n i)); reflexivity || assumption).
    + intros Ac. destruct (a_io (n_ars n i)) eqn:Ei; auto.
      destruct Ac as (X1 & X2 & X3 & X4 & X5 & X6 & X7 & X8 & X9 & X10 & X11 & X12).
      unfold active; cbn; rewrite Ei in *.
      refine (conj X1 (conj X2 (conj X3 (conj X4 (conj X5 (conj X6 (conj X7 (conj X8 (conj X9 (conj X10 (conj _ X12)))))))))));
      discriminate.
    + intros Id. left. assert (Q : a_io (n_ars n i) = IoIdle) by apply Id. rewrite Q. exact Id.
  - (* restart *)
    destruct (inv_use _ I R0) as (Lt & Ar & St).
    set (a := n_ars n i) in *. destruct R2 as [A B C D E F G].
    pose proof I as [H1 H2 H3 H4 H5 H6 H7 H8 H9].
    assert (Ac : active a).
    { destruct St as [Id|]; auto. assert (a_sm a = SmIdle) by apply Id. congruence. }
    assert (TT : forall t, In t (del_timer (a_hsm a) (n_timers n)) -> In t (n_timers n) /\
                (t_kind t = TSm -> t_ar t <> i)).
    { intros t Ht. apply in_del in Ht. destruct Ht as [Ht N]. split; auto.
      intros K Et. destruct (H4 t Ht K) as (_ & _ & K3 & _). rewrite Et in K3. unfold a in *; congruence. }
    constructor; rewrite ?F, ?C, ?E; auto.
    + intros k. destruct (Nat.eq_dec k i) as [->|N]; [rewrite B|rewrite A by auto; auto].
      right. split; auto. split; auto. split; [exact Ar|]. right.
      destruct Ac as (X1 & X2 & X3 & X4 & X5 & X6 & X7 & X8 & X9 & X10 & X11 & X12).
      unfold active; cbn.
      assert (a_dev a <> DevData) by (intros Q; apply X8 in Q; destruct Q; congruence).
      refine (conj X1 (conj X2 (conj X3 (conj X4 (conj X5 (conj X6 (conj X7 (conj _ (conj _ (conj X10 (conj X11 X12)))))))))));
      [intros Q; congruence|]. intros Q. split; auto. apply X9; auto.
    + cbn. constructor; [|apply nodup_del; auto].
      intros K. apply in_map_iff in K. destruct K as (t & Et & Ht). apply TT in Ht.
      destruct Ht as [Ht _]. apply H3 in Ht. lia.
    + intros t [<-|Ht]; cbn; [lia|]. apply TT in Ht. destruct Ht as [Ht _]. apply H3 in Ht. lia.
    + intros t [<-|Ht] K; cbn.
      * rewrite B. cbn. auto.
      * destruct (TT t Ht) as [Ht' N]. rewrite A by auto. auto.
    + intros k K. destruct (Nat.eq_dec k i) as [->|N].
      * eexists. split; [left; reflexivity|]. auto.
      * rewrite A in K by auto. destruct (H5 k K) as (t & Ht & Kt & Et). exists t. split; auto.
        right. apply in_del. split; auto. intros Q.
        destruct (H5 i R1) as (t' & Ht' & Kt' & Et').
        destruct (H4 t' Ht' Kt') as (_ & _ & Q' & _). rewrite Et' in Q'.
        assert (Eid : t_id t' = t_id t) by (fold a in Q'; congruence).
        assert (t' = t).
        { apply (@timer_unique (n_timers n)); auto. }
        subst. congruence.
    + intros k K. destruct (Nat.eq_dec k i) as [->|N]; [rewrite B in K; discriminate|].
      rewrite A in * by auto. auto.
    + intros k id K. 
      assert (K' : a_hio (n_ars n k) = Some id).
      { destruct (Nat.eq_dec k i) as [->|N]; [rewrite B in K; exact K|rewrite A in K by auto; auto]. }
      destruct (H7 k id K') as [L Q]. split; [lia|]. intros t [<-|Ht] Et; cbn in *; [lia|].
      apply Q; auto. apply TT; auto.
    + intros k. destruct (Nat.eq_dec k i) as [->|N]; [rewrite B; cbn|rewrite A by auto; auto].
      apply H9.
  - (* ioexp *)
    subst n'. pose proof I as [H1 H2 H3 H4 H5 H6 H7 H8 H9].
    assert (TT : forall u, In u (del_timer (Some (t_id t)) (n_timers n)) -> In u (n_timers n)).
    { intros u Hu. apply in_del in Hu. tauto. }
    constructor; cbn [n_ars n_order n_subs n_timers n_next settimers]; auto.
    + apply nodup_del; auto.
    + intros k K. destruct (H5 k K) as (u & Hu & Ku & Eu). exists u. split; auto.
      apply in_del. split; auto. intros Q. injection Q as Q.
      assert (t = u).
      { apply (@timer_unique (n_timers n)); auto. }
      congruence.
    + intros k id K. destruct (H7 k id K) as [L Q]. split; auto.
  - (* ioadd *)
    destruct (inv_use _ I Y0) as (Lt & Ar & St).
    destruct Y1 as [A B C D E F G].
    pose proof I as [H1 H2 H3 H4 H5 H6 H7 H8 H9].
    assert (Qk : forall k, a_use (n_ars n' k) = a_use (n_ars n k) /\
                        a_sm (n_ars n' k) = a_sm (n_ars n k) /\
                        a_hsm (n_ars n' k) = a_hsm (n_ars n k) /\
                        a_factor (n_ars n' k) = a_factor (n_ars n k)).
    { intros k. destruct (Nat.eq_dec k i) as [->|N]; [rewrite B|rewrite A by auto]; auto. }
    constructor; rewrite ?E, ?F, ?C; auto.
    + intros k. destruct (Nat.eq_dec k i) as [->|N]; [rewrite B|rewrite A by auto; auto].
      right. split; auto. split; auto. split; [exact Ar|]. right.
      destruct St as [Id|Ac]; [|exact Ac]. exfalso. apply Y00. apply Id.
    + cbn. constructor; auto. intros K. apply in_map_iff in K. destruct K as (t & Et & Ht).
      apply H3 in Ht. lia.
    + intros t [<-|Ht]; cbn; [lia|]. apply H3 in Ht. lia.
    + intros t [<-|Ht] K; cbn in *; [discriminate|].
      destruct (Qk (t_ar t)) as (Q1 & Q2 & Q3 & Q4). rewrite Q1, Q2, Q3, Q4. auto.
    + intros k K. destruct (Qk k) as (Q1 & Q2 & Q3 & Q4). rewrite Q2 in K.
      destruct (H5 k K) as (t & Ht & Q). exists t. split; [now right|auto].
    + intros k K. destruct (Qk k) as (Q1 & Q2 & Q3 & Q4). rewrite Q2 in K. rewrite Q3; auto.
    + intros k id K. destruct (Nat.eq_dec k i) as [->|N].
      * rewrite B in K. cbn in K. injection K as <-. split; [lia|].
        intros t [<-|Ht] Et; auto. apply H3 in Ht. lia.
      * rewrite A in K by auto. destruct (H7 k id K) as [L Q]. split; [lia|].
        intros t [<-|Ht] Et; [exfalso; cbn in Et; lia|auto].
    + intros k. destruct (Qk k) as (Q1 & _). rewrite Q1. apply H9.
  - (* iooff *)
    destruct (a_use (n_ars n i)) eqn:U.
    2:{ pose proof (inv_nouse _ I U) as Z. rewrite Z in Z1. cbn in Z1.
        destruct Z1 as [A B C D E F G]. eapply inv_same; eauto.
        intros k. destruct (Nat.eq_dec k i) as [->|N]; [rewrite B, Z; reflexivity|auto]. }
    destruct (inv_use _ I U) as (Lt & Ar & St).
    destruct Z1 as [A B C D E F G].
    pose proof I as [H1 H2 H3 H4 H5 H6 H7 H8 H9].
    assert (Qk : forall k, a_use (n_ars n' k) = a_use (n_ars n k) /\
                        a_sm (n_ars n' k) = a_sm (n_ars n k) /\
                        a_hsm (n_ars n' k) = a_hsm (n_ars n k) /\
                        a_factor (n_ars n' k) = a_factor (n_ars n k)).
    { intros k. destruct (Nat.eq_dec k i) as [->|N]; [rewrite B|rewrite A by auto]; auto. }
    constructor; rewrite ?E, ?F, ?C; auto.
    + intros k. destruct (Nat.eq_dec k i) as [->|N]; [rewrite B|rewrite A by auto; auto].
      right. split; auto. split; auto. split; [exact Ar|]. destruct St as [Id|Ac].
      * left. unfold idle in *. cbn. repeat match goal with H : _ /\ _ |- _ => destruct H end. auto 15.
      * right. destruct Ac as (X1 & X2 & X3 & X4 & X5 & X6 & X7 & X8 & X9 & X10 & X11 & X12).
        unfold active; cbn.
        refine (conj X1 (conj X2 (conj X3 (conj X4 (conj X5 (conj X6 (conj X7 (conj X8 (conj X9 (conj X10 (conj X11 _))))))))))).
        intros Q. exfalso. apply Z0. auto.
    + intros t Ht K. destruct (Qk (t_ar t)) as (Q1 & Q2 & Q3 & Q4). rewrite Q1, Q2, Q3, Q4. auto.
    + intros k K. destruct (Qk k) as (Q1 & Q2 & Q3 & Q4). rewrite Q2 in K. auto.
    + intros k K. destruct (Qk k) as (Q1 & Q2 & Q3 & Q4). rewrite Q2 in K. rewrite Q3; auto.
    + intros k id K. destruct (Nat.eq_dec k i) as [->|N].
      * rewrite B in K. discriminate.
      * rewrite A in K by auto. eauto.
    + intros k. destruct (Qk k) as (Q1 & _). rewrite Q1. apply H9.
  - (* pbe *)
    eapply inv_local; eauto; try reflexivity.
    + intros (X1 & X2 & X3 & X4 & X5 & X6 & X7 & X8 & X9 & X10 & X11 & X12). unfold active; cbn.
      refine (conj X1 (conj _ (conj X3 (conj X4 (conj X5 (conj X6 (conj X7 (conj _ (conj _ (conj X10 (conj X11 X12))))))))))); auto; try tauto.
    + intros (Q & _). congruence.
Qed.

Lemma inv_path : forall m o n n', path m o n n' -> inv m n -> inv m n'.
Proof. induction 1; intros; auto. apply IHpath. eapply inv_atom; eauto. Qed.

Lemma inv_net0 : forall m, inv m net0.
Proof.
  intros m. constructor; cbn.
  - intros i. left; reflexivity.
  - constructor.
  - tauto.
  - tauto.
  - discriminate.
  - auto.
  - discriminate.
  - constructor.
  - intros i. split; [tauto|discriminate].
Qed.
