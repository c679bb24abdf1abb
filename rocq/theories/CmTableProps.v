(** Properties of the table of connections: C47 to C52. *)

From Coq Require Import List Arith Bool ZArith Lia.
From Verif Require Import Base CmModel CmSpec CmLemmas CmAtoms CmSteps CmTrace CmHist CmProps.
Import ListNotations.
Set Implicit Arguments.
Open Scope nat_scope.

(** ** A concrete device: one input and one output CR, one sub-slot *)
Definition k1 : key := (0, 1, 1)%Z.
Definition q1 : connreq :=
  mkReq 7 true false [CrInput; CrOutput] [mkExp k1 10 20] 600 true [k1] true false true 0.
Definition q2 : connreq :=
  mkReq 8 true false [CrInput; CrOutput] [mkExp k1 10 20] 300 true [k1] true false true 0.
Definition to_started : list input := [IPlug k1 10 20; IConnect q1].
Definition to_ready : list input :=
  to_started ++ [IDControl 0 PrmEnd true true (Some 0); IAppReady 0 true true].
Definition to_data : list input :=
  to_ready ++ [ICControlCnf 0 true true; ICpmState 0 1 true; IExpire 1].

Lemma well_data : Forall well_behaved to_data.
Proof. repeat constructor; cbn; auto; discriminate. Qed.
Lemma reach_prefix : forall m E xs ys, Forall E (xs ++ ys) -> reachable m E (run m xs net0).
Proof. intros m E xs ys F. apply Forall_app in F. exists xs. tauto. Qed.

(** ** C47: the order of events *)
Theorem C47_event_order : forall m n i,
  reachable m well_behaved n -> exists p, phase_of (S i) (n_tr n) = Some p.
Proof.
  intros m n i R. destruct (pinv_reach R) as [_ P]. destruct (P i) as (H & _). eauto.
Qed.

Example C47_data_reached :
  phase_of 1 (n_tr (run 2 to_data net0)) = Some Exchanging.
Proof. vm_compute. reflexivity. Qed.

(** Without the restriction to one session per connection the order is
    violated: the end of parameterisation of the second connection, requested
    in the session of the first, is reported for the first connection. *)
Theorem C47_foreign_session_refuted :
  exists n, reachable 2 (fun x => answers_consistently x /\ refuses_with_error x) n /\
            phase_of 1 (n_tr n) = None.
Proof.
  exists (run 2 (to_ready ++ [IConnect q2; IDControl 1 PrmEnd true true (Some 0)]) net0).
  split; [|vm_compute; reflexivity]. eexists. split; [|reflexivity].
  repeat constructor; cbn; auto; discriminate.
Qed.

(** ** C48: ownership of sub-slots *)

(** Requests that claim what they expect, and claim nothing if refused. *)
Definition claims_well (x : input) : Prop :=
  answers_consistently x /\ claims_expected x /\ refused_without_claims x.

Theorem C48_owner_expects : forall m n s j,
  reachable m claims_well n -> In s (n_subs n) -> s_owner s = Some j ->
  a_use (n_ars n j) = true /\ expects n j (s_key s).
Proof.
  intros m n s j (xs & F & ->) Hs Ho.
  set (own := mkEnv false claims_well).
  destruct (@run_ind m claims_well own oinv) with (xs := xs) (n := net0) as [I O]; auto.
  - intros x H. split; [apply H|]. split; [discriminate|exact H].
  - intros n n' I O A. eapply oinv_atom; eauto.
    intros q Hq. unfold e_ok in Hq; cbn in Hq. destruct Hq as (_ & H1 & H2). split; auto.
  - apply inv_net0.
  - intros s' j' [].
  - destruct (O s j Hs Ho) as [U E]. split; auto. now apply expected_in.
Qed.

(** Requests that claim everything they expect if they are accepted. *)
Definition claims_fully (x : input) : Prop :=
  answers_consistently x /\ refuses_with_error x /\ claims_all x.

Theorem C48_expected_is_owned : forall m n s j,
  reachable m claims_fully n -> In s (n_subs n) -> s_use s = true ->
  a_use (n_ars n j) = true -> expects n j (s_key s) -> s_owner s <> None.
Proof.
  intros m n s j (xs & F & ->) Hs Us Uj Ex.
  set (own := mkEnv false claims_fully).
  destruct (@run_ind m claims_fully own cinv) with (xs := xs) (n := net0) as [I O]; auto.
  - intros x H. split; [apply H|]. split; [discriminate|exact H].
  - intros n n' I O A. eapply cinv_atom; eauto.
    intros q Hq. unfold e_ok in Hq; cbn in Hq. destruct Hq as (_ & H1 & H2). split; auto.
  - apply inv_net0.
  - intros s' j' [].
  - apply (O s j); auto. now apply expected_in.
Qed.

(** At most one sub-module is plugged at an address, so an address has at most
    one owner. *)
Theorem C48_one_per_address : forall m n s s',
  reachable m answers_consistently n -> In s (n_subs n) -> In s' (n_subs n) ->
  s_use s = true -> s_use s' = true -> s_key s = s_key s' -> s = s'.
Proof.
  intros m n s s' R Hs Hs' Us Us' E. pose proof (kinv_run R) as K.
  pose proof (kinv_find s K Hs Us eq_refl) as F1.
  pose proof (kinv_find s' K Hs' Us' eq_refl) as F2. rewrite E in F1. congruence.
Qed.

Lemma first_expecting_first : forall n order k,
  match first_expecting (n_ars n) order k with
  | Some (j, e) => first_expects n order j k /\ In e (a_exp (n_ars n j)) /\ e_key e = k
  | None => forall j, In j order -> ~ expects n j k
  end.
Proof.
  intros n order k. induction order as [|x r IH]; cbn; [tauto|].
  destruct (expected (n_ars n x) k) as [e|] eqn:E.
  - split.
    + exists [], r. split; auto. split; [|intros y []]. apply expected_in. congruence.
    + unfold expected in E. apply find_some in E. destruct E as [E1 E2].
      apply key_eqb_eq in E2. auto.
  - assert (Nx : ~ expects n x k) by (intros Q; apply expected_in in Q; auto).
    destruct (first_expecting (n_ars n) r k) as [[j e]|].
    + destruct IH as [(pre & post & -> & A & B) C]. split; auto.
      exists (x :: pre), post. split; auto. split; auto. intros y [<-|Hy]; auto.
    + intros j [<-|Hj]; auto.
Qed.

Lemma first_unique : forall (P : nat -> Prop) pre pre' j j' post post',
  pre ++ j :: post = pre' ++ j' :: post' -> P j -> P j' ->
  (forall x, In x pre -> ~ P x) -> (forall x, In x pre' -> ~ P x) -> j = j'.
Proof.
  intros P; induction pre as [|x pre IH]; intros [|x' pre'] j j' post post' E Pj Pj' N N'; cbn in E.
  - congruence.
  - injection E as <- E. exfalso. apply (N' j); auto. now left.
  - injection E as -> E. exfalso. apply (N j'); auto. now left.
  - injection E as -> E. eapply IH; eauto.
    + intros y Hy. apply N. now right.
    + intros y Hy. apply N'. now right.
Qed.

(** When a connection ends, its sub-slots pass to the first of the remaining
    connections, in order of establishment, that expects them; those that
    nobody expects become free; the others keep their owner.  The new owner is
    sent a "released" alarm if the sub-module is the one it expects. *)
Theorem C48_handover : forall m n i,
  reachable m answers_consistently n -> a_use (n_ars n i) = true ->
  let n' := step m (IAbort i) n in
  n_order n' = remove Nat.eq_dec i (n_order n) /\
  Forall2 (fun s s' =>
    s_use s' = s_use s /\ s_key s' = s_key s /\ s_mod s' = s_mod s /\ s_ident s' = s_ident s /\
    (s_owner s <> Some i -> s_owner s' = s_owner s) /\
    (s_owner s = Some i ->
       match s_owner s' with
       | Some j => first_expects n' (n_order n') j (s_key s)
       | None => forall j, a_use (n_ars n' j) = true -> ~ expects n' j (s_key s)
       end)) (n_subs n) (n_subs n') /\
  (forall os j k, effects m (IAbort i) n os ->
     (In (OReleased j k) os <->
      exists s e, In s (n_subs n) /\ s_key s = k /\ s_owner s = Some i /\
        first_expects n' (n_order n') j k /\
        expected (n_ars n' j) k = Some e /\ e_mod e = s_mod s /\ e_sub e = s_ident s)).
Proof.
  intros m n i R U n'. destruct (reach_inv R) as [I T].
  destruct (inv_use i I U) as (Lt & Ar & _).
  assert (Ab : aborted i n n').
  { unfold n'. cbn [step]. unfold guard. rewrite U. unfold set_dev.
    apply (@aborted_of i n (setar i (with_dev DevAbort (n_ars n i)) n)
             (with_dev DevAbort (n_ars n i))); auto. dlt. }
  assert (Eff : forall os, effects m (IAbort i) n os -> n_tr n' = os ++ n_tr n)
    by (intros os H; exact H).
  clearbody n'.
  assert (I' : inv m n') by (eapply inv_abort; eauto).
  destruct Ab as (A & O & S & _ & _ & G). rewrite Ar in O, S, G.
  set (o' := remove_first i (n_order n)) in *.
  assert (Fe : forall k, first_expecting (upd (n_ars n) i ar0) o' k = first_expecting (n_ars n') o' k).
  { intros k. apply expected_ext. intros j. now rewrite A. }
  split.
  { rewrite O. unfold o'. pose proof (v_order I) as Nd. revert Nd. clear.
    induction (n_order n) as [|x r IH]; cbn; intros Nd; auto. inversion Nd; subst.
    destruct (Nat.eq_dec i x) as [<-|N].
    - rewrite Nat.eqb_refl. now rewrite notin_remove.
    - destruct (Nat.eqb_spec x i); [congruence|]. f_equal. auto. }
  split.
  { rewrite S, O. unfold clear_subs. rewrite clear_fst.
    generalize (n_subs n). induction l as [|s r IH]; cbn; constructor; auto.
    unfold clear_one. rewrite Fe. unfold owned_by.
    pose proof (first_expecting_first n' o' (s_key s)) as F.
    destruct (s_owner s) as [j0|] eqn:Ow.
    2:{ cbn. rewrite Ow. repeat split; auto. discriminate. }
    destruct (Nat.eqb_spec j0 i) as [->|N].
    - destruct (first_expecting (n_ars n') o' (s_key s)) as [[j e]|]; cbn.
      + repeat split; auto; try congruence. intros _. apply F.
      + repeat split; auto; try congruence. intros _ j Uj. apply F.
        rewrite <- O. now apply (v_order_use I').
    - cbn. rewrite Ow. repeat split; auto. congruence. }
  intros os j k E. apply Eff in E. rewrite G in E.
  assert (Eo : os = snd (clear_subs n i o') ++ tr_su i EvAbort (n_ars n i) ++ [OEvent (Datatypes.S i) EvAbort]).
  { apply (app_inv_tail (n_tr n)). rewrite <- E, <- !app_assoc. reflexivity. }
  assert (In (OReleased j k) os <-> In (OReleased j k) (snd (clear_subs n i o'))) as ->.
  { subst os. rewrite !in_app_iff. split; [|tauto]. intros [H|[H|[H|[]]]]; auto; try discriminate.
    exfalso. unfold tr_su in H. destruct (a_su (n_ars n i)); try destruct H as [H|H]; try discriminate;
      try (destruct H; fail).
    all: revert H; generalize 0; induction (a_crs (n_ars n i)) as [|x r IH]; cbn; intros z H; auto.
    all: apply in_app_iff in H; destruct H as [H|H]; [eapply IH; eauto|].
    all: unfold su_close in H; destruct (io_kind x); cbn in H; try (destruct H; fail); destruct H as [H|[]]; discriminate. }
  clear E Eo os. unfold clear_subs. rewrite O.
  generalize (n_subs n). induction l as [|s r IH]; cbn.
  { split; [tauto|]. intros (s & e & [] & _). }
  destruct (clear_one (upd (n_ars n) i ar0) o' i s) as [s' os] eqn:C.
  destruct (clear_all (upd (n_ars n) i ar0) o' i r) as [r' os'] eqn:Ca. cbn.
  rewrite in_app_iff. cbn in IH. rewrite IH. clear IH.
  assert (Hd : In (OReleased j k) os <->
      exists e, s_key s = k /\ s_owner s = Some i /\ first_expects n' o' j k /\
        expected (n_ars n' j) k = Some e /\ e_mod e = s_mod s /\ e_sub e = s_ident s).
  { unfold clear_one in C. rewrite Fe in C. unfold owned_by in C.
    destruct (s_owner s) as [j0|] eqn:Ow.
    2:{ injection C as <- <-. split; [intros []|]. intros (e & _ & Q & _). discriminate. }
    destruct (Nat.eqb_spec j0 i) as [->|N].
    2:{ injection C as <- <-. split; [intros []|]. intros (e & _ & Q & _). congruence. }
    pose proof (first_expecting_first n' o' (s_key s)) as F.
    destruct (first_expecting (n_ars n') o' (s_key s)) as [[j1 e1]|] eqn:Fi.
    - injection C as <- <-. apply first_expecting_some in Fi. destruct Fi as [Fi1 Fi2].
      destruct F as [F _].
      assert (Uq : forall j2, first_expects n' o' j2 (s_key s) -> j2 = j1).
      { intros j2 (pre & post & E1 & X1 & Y1). destruct F as (pre' & post' & E2 & X2 & Y2).
        rewrite E1 in E2. eapply (@first_unique (fun x => expects n' x (s_key s))); eauto. }
      destruct ((e_mod e1 =? s_mod s)%Z && (e_sub e1 =? s_ident s)%Z) eqn:Q.
      + apply andb_true_iff in Q. rewrite !Z.eqb_eq in Q. destruct Q as [Qa Qb]. split.
        * intros [H|[]]. injection H as <- <-. exists e1. auto 7.
        * intros (e & <- & _ & Fx & _). left. f_equal. symmetry. auto.
      + split; [intros []|]. intros (e & <- & _ & Fx & Ee & Em & Es).
        rewrite (Uq _ Fx), Fi2 in Ee. injection Ee as <-.
        rewrite Em, Es, !Z.eqb_refl in Q. discriminate.
    - injection C as <- <-. split; [intros []|]. intros (e & <- & _ & Fx & _). exfalso.
      destruct Fx as (pre & post & E1 & X1 & _). apply (F j); auto. rewrite E1.
      apply in_app_iff. right. now left. }
  rewrite Hd. split.
  - intros [(s0 & e & H)|(e & H)]; [exists s0, e; tauto|exists s, e; tauto].
  - intros (s0 & e & [<-|Hs] & H); [right; exists e; tauto|left; exists s0, e; tauto].
Qed.

(** A connect request whose start fails after its sub-slots were claimed is
    refused, but keeps the sub-slots: they are owned by a connection that does
    not exist, so nobody can write to them or use them any more. *)
Definition q_fail : connreq :=
  mkReq 9 true false [CrInput; CrOutput] [mkExp k1 10 20] 600 true [k1] true false false 1.
Theorem C48_failed_connect_refuted :
  exists n s j, reachable 2 well_behaved n /\ In s (n_subs n) /\ s_use s = true /\
    s_owner s = Some j /\ a_use (n_ars n j) = false.
Proof.
  exists (run 2 [IPlug k1 10 20; IConnect q_fail] net0), (mkSub true k1 10 20 (Some 0)), 0.
  split; [|vm_compute; auto]. eexists. split; [|reflexivity].
  repeat constructor; cbn; auto; discriminate.
Qed.

Example C48_owned : exists s, In s (n_subs (run 2 to_data net0)) /\ s_owner s = Some 0.
Proof. exists (mkSub true k1 10 20 (Some 0)). vm_compute. auto. Qed.
Example C48_handed_over :
  let n := run 2 (to_data ++ [IConnect q2]) net0 in
  s_owner (hd (mkSub false k1 0 0 None) (n_subs n)) = Some 0 /\
  s_owner (hd (mkSub false k1 0 0 None) (n_subs (step 2 (IAbort 0) n))) = Some 1 /\
  In (OReleased 1 k1) (n_tr (step 2 (IAbort 0) n)).
Proof. vm_compute. tauto. Qed.

(** ** C49: the table of connections *)
Lemma established_plain : forall os tr,
  Forall (fun o => match o with OConnected _ | OEvent (S _) EvAbort => False | _ => True end) os ->
  established (os ++ tr) = established tr.
Proof.
  induction 1 as [|o r Ho Hr IH]; cbn [app]; auto.
  destruct o as [[|a] e| | | | | | | | | | | | | | | ]; cbn in *; auto; try tauto. destruct e; auto; tauto.
Qed.

Definition unlisted (o : obs) : Prop :=
  match o with OConnected _ | OEvent (S _) EvAbort => False | _ => True end.

Lemma cr_unlisted : forall f l c, (forall c k, Forall unlisted (f c k)) ->
  Forall unlisted (cr_obs f c l).
Proof.
  intros f l; induction l as [|x r IH]; cbn; intros c H; auto. apply Forall_app. auto.
Qed.
Lemma open_unlisted : forall i l c, Forall unlisted (cr_obs (su_open i) c l).
Proof. intros. apply cr_unlisted. intros c' []; cbn; repeat constructor. Qed.
Lemma su_unlisted : forall i e a, Forall unlisted (tr_su i e a).
Proof.
  intros i e a. unfold tr_su. destruct (a_su a), e; auto; try (constructor; [exact Logic.I|]);
    apply cr_unlisted; intros c' []; cbn; repeat constructor.
Qed.
Lemma quiet_unlisted : forall os, Forall quiet os -> Forall unlisted os.
Proof. intros os H. eapply Forall_impl; [|exact H]. intros []; cbn; tauto. Qed.
Lemma clear_unlisted : forall f order i l, Forall unlisted (snd (clear_all f order i l)).
Proof.
  intros. apply Forall_forall. intros o H. apply clear_obs_released in H.
  destruct H as (j & k & ->). exact Logic.I.
Qed.

Lemma remove_first_remove : forall i l, NoDup l -> remove_first i l = remove Nat.eq_dec i l.
Proof.
  intros i l; induction l as [|x r IH]; cbn; intros Nd; auto. inversion Nd; subst.
  destruct (Nat.eq_dec i x) as [<-|N].
  - rewrite Nat.eqb_refl. now rewrite notin_remove.
  - destruct (Nat.eqb_spec x i); [congruence|]. f_equal. auto.
Qed.

Lemma established_atom : forall m own n n', inv m n -> n_order n = established (n_tr n) ->
  atom m own n n' -> n_order n' = established (n_tr n').
Proof.
  intros m own n n' I E At.
  assert (Gen : forall os, n_order n' = n_order n -> n_tr n' = os ++ n_tr n -> Forall unlisted os ->
                n_order n' = established (n_tr n')).
  { intros os A B C. rewrite A, B, established_plain; auto. }
  assert (Del : forall i a' tm nx os, delta i n n' a' tm nx os -> Forall unlisted os ->
                n_order n' = established (n_tr n')).
  { intros i a' tm nx os [_ _ A _ _ _ B] C. eapply Gen; eauto. }
  assert (Ev : forall i a e, e <> EvAbort -> Forall unlisted (tr_su i e a ++ [OEvent (a_arep a) e])).
  { intros i a e Ne. apply Forall_app. split; [apply su_unlisted|]. constructor; auto.
    cbn. destruct (a_arep a); auto. destruct e; auto. }
  destruct At.
  - eapply Gen; eauto. now apply quiet_unlisted.
  - subst. apply (Gen [OWrite i k ix]); auto. repeat constructor.
  - eapply (Gen (_ :: _)); [auto|exact F6|]. constructor; [exact Logic.I|apply open_unlisted].
  - destruct Ha as (_ & O & _ & _ & _ & G). destruct (inv_use i I Hu) as (_ & Ar & _).
    rewrite Ar in O, G. rewrite O, G, established_plain by apply clear_unlisted.
    rewrite established_plain by apply su_unlisted. cbn. rewrite <- E.
    apply remove_first_remove, (v_order I).
  - rewrite S2, S6. cbn. rewrite established_plain by apply open_unlisted. congruence.
  - rewrite W2, W6. cbn. congruence.
  - eapply Del; [exact D2|constructor].
  - eapply Del; [exact E2|]. apply Ev. destruct E1 as [[-> _]|[-> _]]; discriminate.
  - eapply Del; [exact M2|]. apply (Ev i (n_ars n i) EvPrmend). discriminate.
  - eapply Del; [exact T3|]. apply Ev. discriminate.
  - eapply Del; [exact I2|]. repeat constructor.
  - eapply Del; [exact N1|]. repeat constructor.
  - eapply Del; [exact R2|constructor].
  - subst. auto.
  - eapply Del; [exact Y1|constructor].
  - eapply Del; [exact Z1|constructor].
  - eapply Del; [exact B3|constructor].
Qed.

(** The table is exactly the list of established connections, in the order in
    which they were established, and has no more than [m] entries. *)
Theorem C49_table : forall m n, reachable m answers_consistently n ->
  n_order n = established (n_tr n) /\ NoDup (n_order n) /\ length (n_order n) <= m /\
  (forall i, In i (n_order n) <-> a_use (n_ars n i) = true) /\
  (forall i, a_use (n_ars n i) = true -> a_arep (n_ars n i) = S i).
Proof.
  intros m n R. destruct (reach_inv R) as [I _]. split.
  { destruct R as (xs & F & ->).
    apply (@run_ind m answers_consistently any_env (fun n => n_order n = established (n_tr n))); auto.
    - intros x H. split; auto. split; [discriminate|exact Logic.I].
    - intros n n' I' E A. eapply established_atom; eauto.
    - apply inv_net0. }
  split; [apply (v_order I)|]. split.
  { rewrite <- (seq_length m 0). apply NoDup_incl_length; [apply (v_order I)|].
    intros i H. apply (v_order_use I) in H. destruct (inv_use i I H) as (Lt & _).
    apply in_seq. lia. }
  split; [apply (v_order_use I)|]. intros i U. apply (inv_use i I U).
Qed.

Lemma free_slot : forall m n, inv m n ->
  exists i, find_index (fun j => negb (a_use (n_ars n j))) (S m) 0 = Some i /\ i <= m /\
    a_use (n_ars n i) = false /\ (length (n_order n) < m -> i < m) /\
    (length (n_order n) = m -> i = m).
Proof.
  intros m n I.
  assert (Um : a_use (n_ars n m) = false).
  { destruct (a_use (n_ars n m)) eqn:U; auto. destruct (inv_use m I U). lia. }
  destruct (find_index (fun j => negb (a_use (n_ars n j))) (S m) 0) as [i|] eqn:F.
  2:{ exfalso. pose proof (@find_index_none _ _ _ F m) as Q. cbn in Q. rewrite Um in Q.
      assert (0 <= m < S m) by lia. specialize (Q H). discriminate. }
  apply find_index_some in F. destruct F as (A & B & C). apply negb_true_iff in A.
  exists i. split; auto. split; [lia|]. split; auto. split.
  - intros L. destruct (Nat.eq_dec i m) as [->|]; [|lia]. exfalso.
    assert (Q : length (seq 0 m) <= length (n_order n)).
    { apply NoDup_incl_length; [apply seq_NoDup|]. intros j Hj. apply in_seq in Hj.
      apply (v_order_use I). specialize (C j). apply negb_false_iff. apply C. lia. }
    rewrite seq_length in Q. lia.
  - intros L. destruct (Nat.eq_dec i m) as [|N]; auto. exfalso.
    assert (Q : incl (seq 0 m) (n_order n)).
    { apply (@NoDup_length_incl nat (n_order n) (seq 0 m)).
      - apply (v_order I).
      - rewrite seq_length. lia.
      - intros j Hj. apply (v_order_use I) in Hj. destruct (inv_use j I Hj). apply in_seq. lia. }
    specialize (Q i). rewrite in_seq in Q. assert (In i (n_order n)) by (apply Q; lia).
    apply (v_order_use I) in H. congruence.
Qed.

Lemma no_uuid : forall m n i q n1, inv m n ->
  (forall j, a_use (n_ars n j) = true -> a_uuid (n_ars n j) <> q_uuid q) ->
  n_ars n1 i = new_ar m i q -> (forall k, k <> i -> n_ars n1 k = n_ars n k) ->
  find_uuid m (q_uuid q) n1 = None.
Proof.
  intros m n i q n1 I D A B. unfold find_uuid.
  destruct (find_index _ m 0) as [j|] eqn:F; auto. exfalso.
  apply find_index_some in F. destruct F as (F & _ & _).
  apply andb_true_iff in F. destruct F as [F F3]. apply andb_true_iff in F. destruct F as [F1 F2].
  apply Z.eqb_eq in F3. destruct (Nat.eq_dec j i) as [->|N].
  - rewrite A in F2. discriminate.
  - rewrite B in * by auto. eapply D; eauto.
Qed.

(** As long as there is room, a sound connect request with a new identifier is
    accepted and starts a new connection; the others are not affected. *)
Theorem C49_accepts_while_room : forall m n q,
  reachable m answers_consistently n -> length (n_order n) < m ->
  q_parse q = true -> q_check q = true -> q_err q = false -> q_start q = true ->
  (forall j, a_use (n_ars n j) = true -> a_uuid (n_ars n j) <> q_uuid q) ->
  let n' := step m (IConnect q) n in
  exists i, ~ In i (n_order n) /\ n_order n' = n_order n ++ [i] /\
    since (S i) (n_tr n') = Some [] /\ a_uuid (n_ars n' i) = q_uuid q /\
    (exists os, effects m (IConnect q) n os /\ In (OConnected i) os) /\
    (forall j, j <> i -> n_ars n' j = n_ars n j).
Proof.
  intros m n q R L Qp Qc Qe Qs D n'. destruct (reach_inv R) as [I _].
  destruct (free_slot I) as (i & F & _ & U & Lt & _). specialize (Lt L).
  assert (Ltb : (i <? m) = true) by now apply Nat.ltb_lt.
  assert (St : started m i q n n').
  { unfold n'. cbn [step]. unfold connect. rewrite F, Qp, Ltb. cbn [negb].
    set (n1 := setar i (new_ar m i q) (setorder (n_order n ++ [i]) n)).
    assert (K2 : n_ars n1 i = new_ar m i q) by (unfold n1; cbn -[Nat.ltb]; apply upd_same).
    assert (K1 : forall k, k <> i -> n_ars n1 k = n_ars n k)
      by (intros k Hk; unfold n1; cbn -[Nat.ltb]; now rewrite upd_other).
    rewrite (@no_uuid m n i q n1 I D K2 K1). rewrite K2. unfold new_ar at 1. rewrite Ltb.
    cbn [a_arep]. cbn [Nat.eqb].
    apply dev_connect_started; auto. }
  assert (Eff : forall os, n_tr n' = os ++ n_tr n -> effects m (IConnect q) n os)
    by (intros os H; exact H).
  clearbody n'. destruct St as (S1 & S2 & S3 & S4 & S5 & S6).
  exists i. split; [rewrite (v_order_use I); congruence|]. split; auto.
  split; [rewrite S6; cbn; rewrite Nat.eqb_refl; reflexivity|].
  split; [rewrite S1, upd_same; reflexivity|]. split.
  - eexists (_ :: _ :: _ :: _). split; [apply Eff; exact S6|now left].
  - intros j Nj. rewrite S1. now apply upd_other.
Qed.

(** When the table is full every connect request is refused; apart from the
    connection that has the identifier of the request, if any, nothing
    changes. *)
Theorem C49_refuses_when_full : forall m n q,
  reachable m answers_consistently n -> length (n_order n) = m ->
  (forall j, a_use (n_ars n j) = true -> a_uuid (n_ars n j) <> q_uuid q) ->
  let n' := step m (IConnect q) n in
  effects m (IConnect q) n [ORefused (Some m)] /\
  (forall j, n_ars n' j = n_ars n j) /\ n_order n' = n_order n /\
  n_subs n' = n_subs n /\ n_timers n' = n_timers n.
Proof.
  intros m n q R L D. destruct (reach_inv R) as [I _].
  destruct (free_slot I) as (i & F & _ & U & _ & Eq). specialize (Eq L). subst i.
  unfold effects. cbn [step]. unfold connect. rewrite F.
  assert (Ltb : (m <? m) = false) by apply Nat.ltb_irrefl. rewrite Ltb.
  set (n1 := setar m (new_ar m m q) n).
  assert (K2 : n_ars n1 m = new_ar m m q) by (unfold n1; cbn -[Nat.ltb]; apply upd_same).
  assert (K1 : forall k, k <> m -> n_ars n1 k = n_ars n k)
    by (intros k Hk; unfold n1; cbn -[Nat.ltb]; now rewrite upd_other).
  assert (Kr : n_order n1 = n_order n /\ n_subs n1 = n_subs n /\ n_timers n1 = n_timers n /\
               n_tr n1 = n_tr n) by auto.
  rewrite (@no_uuid m n m q n1 I D K2 K1). rewrite K2.
  assert (Z0 : a_arep (new_ar m m q) = 0) by (unfold new_ar; rewrite Ltb; reflexivity).
  rewrite Z0. cbn [Nat.eqb].
  assert (U1 : a_use (n_ars n1 m) = true) by (rewrite K2; reflexivity).
  assert (A1 : a_arep (n_ars n1 m) = (if m <? m then S m else 0)) by (rewrite K2; reflexivity).
  assert (K3 : n_order n1 = (if m <? m then n_order n ++ [m] else n_order n)) by (rewrite Ltb; apply Kr).
  clearbody n1.
  destruct (@release_new m n n1 m I U K1 U1 A1 K3) as (R1 & R2 & R3 & R4 & R5 & R6).
  destruct Kr as (_ & Kr2 & Kr3 & Kr4).
  assert (G : forall z, z = emit (ORefused (Some m)) (ar_release m n1) ->
    n_tr z = [ORefused (Some m)] ++ n_tr n /\ (forall j, n_ars z j = n_ars n j) /\
    n_order z = n_order n /\ n_subs z = n_subs n /\ n_timers z = n_timers n).
  { intros z ->. cbn [emit n_tr n_ars n_order n_subs n_timers app]. rewrite R6, Kr4.
    repeat split; auto; congruence. }
  destruct (negb (q_parse q)); apply G; reflexivity.
Qed.

Example C49_room : length (n_order (run 2 to_data net0)) = 1.
Proof. vm_compute. reflexivity. Qed.
Example C49_full : length (n_order (run 1 to_data net0)) = 1 /\
  effects 1 (IConnect q2) (run 1 to_data net0) [ORefused (Some 1)].
Proof. unfold effects. vm_compute. auto. Qed.

(** ** C50: resources of a connection *)

(** Inputs for which the creation of consumers and providers succeeds. *)
Definition starts_well (x : input) : Prop := answers_consistently x /\ start_succeeds x.

Lemma binv_reach : forall m n, reachable m starts_well n ->
  inv m n /\ forall i, binv i (n_ars n i) (n_tr n).
Proof.
  intros m n (xs & F & ->).
  apply (@run_ind m starts_well (mkEnv false start_succeeds)
           (fun n => forall i, binv i (n_ars n i) (n_tr n))); auto.
  - intros x (A & B). split; auto. split; [discriminate|exact B].
  - intros n n' I P A. eapply binv_atom; eauto. intros q Hq. exact Hq.
  - apply inv_net0.
  - intros i. unfold binv; cbn. auto.
Qed.

(** The device has a consumer for exactly the output CRs, a provider for
    exactly the input CRs and an alarm instance, for exactly the connections
    that are started and have not been aborted since. *)
Theorem C50_resources : forall m n i,
  reachable m starts_well n ->
  match since (S i) (n_tr n) with
  | None => (forall c, cpm_open i c (n_tr n) = false) /\
            (forall c, ppm_open i c (n_tr n) = false) /\ alarm_open i (n_tr n) = false
  | Some _ =>
      (forall c, cpm_open i c (n_tr n) = true <->
                 exists x, nth_error (a_crs (n_ars n i)) c = Some x /\ io_kind x = CrOutput) /\
      (forall c, ppm_open i c (n_tr n) = true <->
                 exists x, nth_error (a_crs (n_ars n i)) c = Some x /\ io_kind x = CrInput) /\
      alarm_open i (n_tr n) = true
  end.
Proof.
  intros m n i R. destruct (binv_reach R) as [_ B]. destruct (B i) as (B1 & B2 & B3). clear B.
  assert (R' : reachable m answers_consistently n).
  { eapply reach_weaken; [|exact R]. intros x (H & _). exact H. }
  destruct (reach_inv R') as [I T]. pose proof (since_state I (T i)) as S.
  destruct (since (Datatypes.S i) (n_tr n)) as [l|].
  - destruct S as (_ & Ac). assert (Su : a_su (n_ars n i) = SuStartup) by apply Ac.
    rewrite Su in *. split; [|split; auto].
    + intros c. rewrite B1. destruct (nth_error (a_crs (n_ars n i)) c) as [x|].
      * split; [intros H; exists x; split; auto; destruct (io_kind x); congruence|].
        intros (y & Q & K). injection Q as <-. now rewrite K.
      * split; [discriminate|]. intros (y & Q & _). discriminate.
    + intros c. rewrite B2. destruct (nth_error (a_crs (n_ars n i)) c) as [x|].
      * split; [intros H; exists x; split; auto; destruct (io_kind x); congruence|].
        intros (y & Q & K). injection Q as <-. now rewrite K.
      * split; [discriminate|]. intros (y & Q & _). discriminate.
  - assert (Su : a_su (n_ars n i) = SuIdle).
    { destruct S as [Z|(_ & Id)]; [rewrite Z; reflexivity|apply Id]. }
    rewrite Su in *. auto.
Qed.

Example C50_open : cpm_open 0 1 (n_tr (run 2 to_data net0)) = true /\
                   ppm_open 0 0 (n_tr (run 2 to_data net0)) = true /\
                   cpm_open 0 1 (n_tr (run 2 (to_data ++ [IRelease 0]) net0)) = false.
Proof. vm_compute. auto. Qed.

(** A start that fails half-way leaves the provider it has created open: the
    connection is refused and its slot is free, but the provider is not
    closed. *)
Theorem C50_failed_start_refuted :
  exists n, reachable 2 well_behaved n /\ since 1 (n_tr n) = None /\
    a_use (n_ars n 0) = false /\ ppm_open 0 0 (n_tr n) = true.
Proof.
  exists (run 2 [IPlug k1 10 20; IConnect q_fail] net0).
  split; [|vm_compute; auto]. eexists. split; [|reflexivity].
  repeat constructor; cbn; auto; discriminate.
Qed.

(** ** C51: parameterisation during data exchange *)
Lemma exch_state : forall m n i, reachable m answers_consistently n ->
  exchanging (S i) (n_tr n) ->
  a_use (n_ars n i) = true /\ a_dev (n_ars n i) = DevData /\ a_stored (n_ars n i) = false /\
  (a_pbe (n_ars n i) = PbWfind \/ a_pbe (n_ars n i) = PbWfrsp).
Proof.
  intros m n i R (l & Si & Hd). destruct (reach_inv R) as [I T].
  pose proof (since_state I (T i)) as S. rewrite Si in S. destruct S as (U & Ac).
  destruct (T i) as (_ & T2 & _). destruct (T2 (proj1 Ac)) as (l' & E & _ & _ & D).
  rewrite Si in E. injection E as <-. apply D in Hd.
  destruct Ac as (_ & A2 & _ & _ & _ & _ & _ & A8 & _). destruct (A8 Hd) as [_ P]. auto.
Qed.

Lemma aborted_since : forall m n n' i, inv m n -> a_use (n_ars n i) = true -> aborted i n n' ->
  since (S i) (n_tr n') = None /\ a_use (n_ars n' i) = false.
Proof.
  intros m n n' i I U (A & _ & _ & _ & _ & G). destruct (inv_use i I U) as (_ & Ar & _).
  rewrite Ar in G. rewrite A, upd_same. split; auto.
  rewrite G, since_foreign by apply plain_foreign, clear_plain.
  rewrite since_foreign by apply plain_foreign, tr_su_plain. cbn. now rewrite Nat.eqb_refl.
Qed.

(** A controller that starts to write parameters during data exchange and
    then ends the parameterisation always loses the connection, whatever the
    application answers. *)
Theorem C51_reparameterisation_refuted : forall m n i cb pd s cb' pd' s',
  reachable m answers_consistently n -> exchanging (S i) (n_tr n) ->
  let n' := run m [IDControl i PrmBegin cb pd s; IDControl i PrmEnd cb' pd' s'] n in
  since (S i) (n_tr n') = None.
Proof.
  intros m n i cb pd s cb' pd' s' R X.
  destruct (exch_state R X) as (U & Dv & St & Pb). destruct (reach_inv R) as [I T].
  assert (Nop : forall (n' : net) (s : option nat),
     match s with Some k => if false && a_use (n_ars n' k) then state_ind k EvPrmend n' else n'
                | None => n' end = n') by (intros n' [k|]; reflexivity).
  cbn [run]. set (n1 := step m (IDControl i PrmBegin cb pd s) n).
  assert (C1 : (since (S i) (n_tr n1) = None /\ a_use (n_ars n1 i) = false) \/
               n1 = setar i (with_pbe PbWfrsp false (n_ars n i)) n).
  { unfold n1. cbn [step]. unfold guard. rewrite U. unfold dcontrol. rewrite Dv.
    unfold cmpbe_dcontrol.
    assert (Ab : forall n2, aborted i n n2 -> since (S i) (n_tr n2) = None /\ a_use (n_ars n2 i) = false)
      by (intros n2 H; eapply aborted_since; eauto).
    destruct Pb as [Pb|Pb]; rewrite Pb.
    - rewrite St. destruct cb; rewrite Nop; [right; reflexivity|].
      left. apply Ab.
      apply (@aborted_of i n _ (with_pbe PbWfrsp false (n_ars n i))); auto. dlt.
    - rewrite Nop. left. apply Ab, aborted_self; auto. }
  assert (R1 : reachable m answers_consistently n1) by (apply reach_step; [exact R|exact Logic.I]).
  destruct (reach_inv R1) as [I1 _].
  clearbody n1. cbn [step]. unfold guard.
  destruct C1 as [[S1 U1]|E1]; [rewrite U1; exact S1|].
  assert (P1 : n_ars n1 i = with_pbe PbWfrsp false (n_ars n i)) by (rewrite E1; cbn; apply upd_same).
  assert (U1 : a_use (n_ars n1 i) = true) by (rewrite P1; exact U).
  rewrite U1. unfold dcontrol, cmpbe_dcontrol. rewrite P1. cbn [a_dev with_pbe a_pbe]. rewrite Dv, Nop.
  eapply aborted_since; [exact I1|exact U1|]. apply aborted_self; auto.
Qed.

Example C51_exchanging : exchanging 1 (n_tr (run 2 to_data net0)).
Proof. exists [EvData; EvApplrdy; EvPrmend]. vm_compute. auto. Qed.

(** ** C52: one connection per identifier *)
Theorem C52_identifiers_unique : forall m n i j,
  reachable m answers_consistently n ->
  a_use (n_ars n i) = true -> a_use (n_ars n j) = true ->
  a_uuid (n_ars n i) = a_uuid (n_ars n j) -> i = j.
Proof.
  intros m n i j (xs & F & ->).
  assert (V : uinv (run m xs net0)).
  { apply (@run_ind m answers_consistently any_env uinv); auto.
    - intros x H. split; auto. split; [discriminate|exact Logic.I].
    - intros n n' I P A. eapply uinv_atom; eauto.
    - apply inv_net0.
    - intros i' j' H. discriminate. }
  auto.
Qed.

(** A connect request with the identifier of an existing connection is
    refused and ends that connection, and no other. *)
Theorem C52_duplicate_ends_old : forall m n q j,
  reachable m answers_consistently n -> q_parse q = true ->
  a_use (n_ars n j) = true -> a_uuid (n_ars n j) = q_uuid q ->
  let n' := step m (IConnect q) n in
  (exists os i, effects m (IConnect q) n os /\ In (ORefused (Some i)) os /\
     forall z, ~ In (OConnected z) os) /\
  since (S j) (n_tr n') = None /\ a_use (n_ars n' j) = false /\
  (forall z, z <> j -> n_ars n' z = n_ars n z /\ since (S z) (n_tr n') = since (S z) (n_tr n)).
Proof.
  intros m n q j R Qp Uj Eq. destruct (reach_inv R) as [I _].
  destruct (inv_use j I Uj) as (Lj & Arj & Sj).
  destruct (free_slot I) as (i & F & Le & U & _).
  assert (Nij : j <> i) by congruence.
  unfold effects. cbn [step]. unfold connect. rewrite F, Qp. cbn [negb].
  set (n1 := setar i (new_ar m i q) (if i <? m then setorder (n_order n ++ [i]) n else n)).
  assert (K1 : forall k, k <> i -> n_ars n1 k = n_ars n k).
  { intros k Hk. unfold n1. cbn -[Nat.ltb]. rewrite upd_other by auto. destruct (i <? m); reflexivity. }
  assert (K2 : n_ars n1 i = new_ar m i q) by (unfold n1; cbn -[Nat.ltb]; apply upd_same).
  assert (K3 : n_order n1 = (if i <? m then n_order n ++ [i] else n_order n))
    by (unfold n1; cbn -[Nat.ltb]; destruct (i <? m); reflexivity).
  assert (K7 : n_subs n1 = n_subs n /\ n_timers n1 = n_timers n /\ n_next n1 = n_next n /\
               n_tr n1 = n_tr n) by (unfold n1; cbn -[Nat.ltb]; destruct (i <? m); auto).
  clearbody n1.
  assert (Fu : find_uuid m (q_uuid q) n1 = Some j).
  { unfold find_uuid.
    assert (Dj : match a_dev (n_ars n j) with PowerOn => true | _ => false end = false).
    { destruct Sj as [(D & _)|(_ & _ & D & _)]; [rewrite D; auto|].
      destruct D as [D|[D|[D|[D|D]]]]; rewrite D; auto. }
    destruct (find_index _ m 0) as [z|] eqn:Fz.
    - apply find_index_some in Fz. destruct Fz as (Fz & _ & _).
      apply andb_true_iff in Fz. destruct Fz as [Fz F3]. apply andb_true_iff in Fz. destruct Fz as [F1 F2].
      apply Z.eqb_eq in F3. assert (z <> i) by (intros ->; rewrite K2 in F2; discriminate).
      rewrite K1 in * by auto. f_equal. eapply C52_identifiers_unique; eauto. congruence.
    - exfalso. pose proof (@find_index_none _ _ _ Fz j) as Q. cbn in Q.
      rewrite (K1 j Nij), Uj, Dj, Eq, Z.eqb_refl in Q. cbn in Q. assert (Lt : 0 <= j < m) by lia. specialize (Q Lt). discriminate. }
  rewrite Fu.
  assert (U1 : a_use (n_ars n1 i) = true) by (rewrite K2; reflexivity).
  assert (A1 : a_arep (n_ars n1 i) = (if i <? m then S i else 0)) by (rewrite K2; reflexivity).
  destruct (@release_new m n _ i I U K1 U1 A1 K3) as (R1 & R2 & R3 & R4 & R5 & R6).
  set (n2 := emit (ORefused (Some i)) (ar_release i n1)).
  assert (A2 : forall z, n_ars n2 z = n_ars n z) by (intros z; apply R1).
  assert (T2 : n_tr n2 = ORefused (Some i) :: n_tr n).
  { unfold n2. cbn [emit n_tr]. rewrite R6. destruct K7 as (_ & _ & _ & ->). reflexivity. }
  assert (I2 : inv m n2).
  { apply (@inv_same m n); auto; unfold n2; cbn [emit n_order n_timers n_next]; try congruence;
      destruct K7 as (_ & K7a & K7b & _); congruence. }
  clearbody n2.
  assert (Uj2 : a_use (n_ars n2 j) = true) by (rewrite A2; exact Uj).
  assert (Ab : aborted j n2 (set_dev j DevAbort n2)).
  { unfold set_dev.
    apply (@aborted_of j n2 (setar j (with_dev DevAbort (n_ars n2 j)) n2)
             (with_dev DevAbort (n_ars n2 j))); auto. dlt. }
  set (n' := set_dev j DevAbort n2) in *. clearbody n'.
  destruct (aborted_since I2 Uj2 Ab) as [S' U'].
  destruct Ab as (A & _ & _ & _ & _ & G). rewrite A2, Arj, T2 in G.
  split; [|split; [exact S'|split; [exact U'|]]].
  - match type of G with _ = ?c ++ ?s ++ ?e :: ?o :: _ => exists (c ++ s ++ [e; o]), i end.
    split; [rewrite G, <- !app_assoc; reflexivity|]. split.
    + rewrite !in_app_iff. cbn. auto.
    + intros z H. apply in_app_iff in H. destruct H as [H|H].
      { apply clear_obs_released in H. destruct H as (x & y & H). discriminate. }
      apply in_app_iff in H. destruct H as [H|[H|[H|[]]]]; try discriminate.
      pose proof (su_unlisted j EvAbort (n_ars n j)) as P. rewrite Forall_forall in P. exact (P _ H).
  - intros z Nz. rewrite A, upd_other, A2 by auto. split; auto.
    rewrite G, since_foreign by apply plain_foreign, clear_plain.
    rewrite since_foreign by apply plain_foreign, tr_su_plain. cbn.
    destruct (Nat.eqb_spec j z); [congruence|reflexivity].
Qed.

Example C52_case : a_use (n_ars (run 2 to_data net0) 0) = true /\
                   a_uuid (n_ars (run 2 to_data net0) 0) = q_uuid q1.
Proof. vm_compute. auto. Qed.

(** ** The hypotheses of C30, C31 and C33 are met *)
Example C30_started : reachable 2 answers_consistently (run 2 to_started net0) /\
  starting 1 (n_tr (run 2 to_started net0)) /\
  exists t, In t (n_timers (run 2 to_started net0)) /\ t_kind t = TSm /\ t_delay t = 60000000%Z.
Proof.
  split; [exists to_started; split; [|reflexivity]; repeat constructor; cbn; auto; discriminate|].
  split; [exists []; vm_compute; split; auto|].
  exists (mkTm 0 TSm 0 60000000%Z). vm_compute. auto.
Qed.
Example C30_data : exchanging 1 (n_tr (run 2 to_data net0)) /\
  ~ starting 1 (n_tr (run 2 to_data net0)).
Proof.
  split; [exists [EvData; EvApplrdy; EvPrmend]; vm_compute; auto|].
  intros (l & Q & N). vm_compute in Q. injection Q as <-. apply N. cbn. auto.
Qed.
Example C31_written : effects 2 (IWrite 0 k1 5) (run 2 to_started net0) [OWrite 0 k1 5] /\
  effects 2 (IWrite 0 k1 5) (run 2 to_data net0) [OWrite 0 k1 5] /\
  effects 2 (IWrite 0 k1 5) (run 2 (to_started ++ [IDControl 0 PrmEnd true true (Some 0)]) net0) [].
Proof. unfold effects. vm_compute. auto. Qed.
Example C33_waiting :
  since 1 (n_tr (run 2 to_ready net0)) = Some [EvApplrdy; EvPrmend] /\
  effects 2 (IExpire 1) (run 2 to_ready net0) [OInfo 0 false].
Proof. unfold effects. vm_compute. auto. Qed.
Example C33_possible :
  reported 0 (n_tr (run 2 (to_ready ++ [ICpmState 0 1 true; IExpire 1]) net0)) = Some true /\
  told 0 1 (n_tr (run 2 (to_ready ++ [ICpmState 0 1 true]) net0)) = Some true.
Proof. vm_compute. auto. Qed.

Print Assumptions C47_event_order.
Print Assumptions C47_foreign_session_refuted.
Print Assumptions C48_owner_expects.
Print Assumptions C48_expected_is_owned.
Print Assumptions C48_one_per_address.
Print Assumptions C48_handover.
Print Assumptions C48_failed_connect_refuted.
Print Assumptions C49_table.
Print Assumptions C49_accepts_while_room.
Print Assumptions C49_refuses_when_full.
Print Assumptions C50_resources.
Print Assumptions C50_failed_start_refuted.
Print Assumptions C51_reparameterisation_refuted.
Print Assumptions C52_identifiers_unique.
Print Assumptions C52_duplicate_ends_old.
