(** Properties C56 (the end of a connection) and C57 (plugging and pulling). *)

From Coq Require Import List Arith Bool ZArith Lia.
From Verif Require Import Base CmModel CmSpec CmLemmas CmAtoms CmSteps CmTrace CmHist CmProps
  CmTableProps.
Import ListNotations.
Set Implicit Arguments.
Open Scope nat_scope.

(** ** C56 *)

(** What ends connection [i]: a release request of the controller, a call of
    pnet_ar_abort, or an error of one of its parts. *)
Definition ends (i : nat) (x : input) : Prop :=
  x = IRelease i \/ x = IAbort i \/ x = IError i.
Definition no_event (o : obs) : Prop := match o with OEvent _ _ => False | _ => True end.

Lemma plain_no_event : forall os, Forall plain os -> Forall no_event os.
Proof. intros os H. eapply Forall_impl; [|exact H]. intros [] Q; cbn in *; auto. Qed.

(** Whatever phase a connection is in, the application is told ABORT for it
    exactly once, nothing is reported about any other connection, and the
    place in the table is free. *)
Theorem C56_ends : forall m n i l x,
  reachable m answers_consistently n -> since (S i) (n_tr n) = Some l -> ends i x ->
  let n' := step m x n in
  (exists p q, effects m x n (p ++ OEvent (S i) EvAbort :: q) /\
               Forall no_event p /\ Forall no_event q) /\
  since (S i) (n_tr n') = None /\ a_use (n_ars n' i) = false /\
  (forall j, j <> i -> n_ars n' j = n_ars n j /\ since (S j) (n_tr n') = since (S j) (n_tr n)).
Proof.
  intros m n i l x R Si X n'. destruct (reach_inv R) as [I T].
  pose proof (since_state I (T i)) as S0. rewrite Si in S0. destruct S0 as (U & Ac).
  destruct (inv_use i I U) as (_ & Ar & _).
  assert (Ab : aborted i n n').
  { assert (Sd : aborted i n (set_dev i DevAbort n)).
    { unfold set_dev.
      apply (@aborted_of i n (setar i (with_dev DevAbort (n_ars n i)) n)
             (with_dev DevAbort (n_ars n i))); auto. dlt. }
    unfold n'. destruct X as [->|[->| ->]]; cbn [step]; unfold guard; rewrite U.
    - unfold release. destruct Ac as (_ & _ & D & _).
      destruct D as [D|[D|[D|[D|D]]]]; rewrite D; exact Sd.
    - exact Sd.
    - apply aborted_self; auto. }
  destruct (aborted_since I U Ab) as [S1 U1].
  destruct Ab as (A & _ & _ & _ & _ & G). rewrite Ar in G.
  assert (P1 : Forall plain (snd (clear_subs n i (remove_first i (n_order n))) ++ tr_su i EvAbort (n_ars n i)))
    by (apply Forall_app; split; [apply clear_plain|apply tr_su_plain]).
  split; [|split; [exact S1|split; [exact U1|]]].
  - exists (snd (clear_subs n i (remove_first i (n_order n))) ++ tr_su i EvAbort (n_ars n i)), [].
    split; [|split; [now apply plain_no_event|constructor]].
    unfold effects. fold n'. rewrite G, <- !app_assoc. reflexivity.
  - intros j Hj. split.
    + rewrite A. unfold upd. destruct (Nat.eqb_spec j i); congruence.
    + rewrite G, app_assoc, since_foreign by (apply plain_foreign; exact P1).
      cbn [since]. destruct (Nat.eqb_spec (S i) (S j)); [lia|reflexivity].
Qed.

Example C56_case :
  since 1 (n_tr (run 2 to_started net0)) = Some [] /\
  exists l, since 1 (n_tr (run 2 to_data net0)) = Some l /\ In EvData l.
Proof.
  split; [vm_compute; reflexivity|]. exists [EvData; EvApplrdy; EvPrmend]. split; [vm_compute; reflexivity|now left].
Qed.

(** ** C57 *)

(** A sub-module with these ident numbers is in the sub-slot. *)
Definition plugged_in (n : net) (k : key) (md id : Z) (o : option nat) : Prop :=
  In (mkSub true k md id o) (n_subs n).
Definition empty_at (n : net) (k : key) : Prop := forall md id o, ~ plugged_in n k md id o.

Lemma put_cell_in : forall x l y, s_use x = true ->
  (In y (put_cell x l) /\ s_use y = true <-> y = x \/ (In y l /\ s_use y = true)).
Proof.
  intros x l y Ux. induction l as [|z r IH]; cbn.
  - split; [intros [[->|[]] _]; auto|intros [->|[[] _]]; auto].
  - destruct (s_use z) eqn:Uz; cbn.
    + split.
      * intros [[->|H] Uy]; [right; auto|]. destruct (proj1 IH (conj H Uy)) as [->|[? ?]]; auto.
      * intros [->|[[->|H] Uy]].
        -- destruct (proj2 IH (or_introl eq_refl)); auto.
        -- auto.
        -- destruct (proj2 IH (or_intror (conj H Uy))); auto.
    + split.
      * intros [[->|H] Uy]; auto.
      * intros [->|[[->|H] Uy]]; auto. congruence.
Qed.

Lemma sub_eta : forall y, s_use y = true -> y = mkSub true (s_key y) (s_mod y) (s_ident y) (s_owner y).
Proof. intros [] E; cbn in *; congruence. Qed.

Lemma find_sub_empty : forall n k, empty_at n k <-> find_sub k (n_subs n) = None.
Proof.
  intros n k. split.
  - intros E. destruct (find_sub k (n_subs n)) as [y|] eqn:F; auto. exfalso.
    apply find_some in F. destruct F as [F1 F2]. apply andb_true_iff in F2. destruct F2 as [F2 F3].
    apply key_eqb_eq in F3. apply (E (s_mod y) (s_ident y) (s_owner y)).
    unfold plugged_in. rewrite <- F3, <- (sub_eta y F2). exact F1.
  - intros F md id o H. apply find_sub_none in F. apply F. apply in_map_iff.
    eexists. split; [|apply filter_In; split; [exact H|]]; reflexivity.
Qed.

(** Plugging into an empty sub-slot: the sub-module is there, every other
    sub-slot is as before.  If a connection expects a sub-module there, the
    first such connection, in order of establishment, owns it and is sent a
    plug alarm that says whether it is the expected one. *)
Theorem C57_plug : forall m n k md id,
  reachable m answers_consistently n -> empty_at n k ->
  let n' := step m (IPlug k md id) n in
  (forall j, n_ars n' j = n_ars n j) /\ n_order n' = n_order n /\
  exists o,
    (forall k' md' id' o', plugged_in n' k' md' id' o' <->
       (k', md', id', o') = (k, md, id, o) \/ (k' <> k /\ plugged_in n k' md' id' o')) /\
    match o with
    | Some j => first_expects n (n_order n) j k /\
                (exists e, In e (a_exp (n_ars n j)) /\ e_key e = k /\
                   effects m (IPlug k md id) n [OPlugAlarm j k (e_sub e =? id)%Z])
    | None => (forall j, In j (n_order n) -> ~ expects n j k) /\ effects m (IPlug k md id) n []
    end.
Proof.
  intros m n k md id R E n'.
  pose proof (proj1 (find_sub_empty n k) E) as F.
  assert (P : forall o k' md' id' o',
    In (mkSub true k' md' id' o') (put_cell (mkSub true k md id o) (n_subs n)) <->
    (k', md', id', o') = (k, md, id, o) \/ (k' <> k /\ plugged_in n k' md' id' o')).
  { intros o k' md' id' o'.
    pose proof (@put_cell_in (mkSub true k md id o) (n_subs n) (mkSub true k' md' id' o') eq_refl) as Q.
    cbn [s_use] in Q. split.
    - intros H. destruct (proj1 Q (conj H eq_refl)) as [H1|[H1 _]]; [left; congruence|].
      right. split; [|exact H1]. intros ->. exact (E _ _ _ H1).
    - intros [H|[_ H]]; apply Q; [left; congruence|right; split; auto]. }
  pose proof (first_expecting_first n (n_order n) k) as Fe.
  unfold n', effects. cbn [step]. unfold plug. rewrite F.
  destruct (first_expecting (n_ars n) (n_order n) k) as [[j e]|]; cbn [emit setsubs n_ars n_order n_tr n_subs].
  - split; [auto|split; auto]. exists (Some j). split; [intros; apply P|].
    destruct Fe as (F1 & F2 & F3). split; auto. exists e. auto.
  - split; [auto|split; auto]. exists None. split; [intros; apply P|]. auto.
Qed.

Lemma pull_first_in : forall k l y, NoDup (map s_key (filter s_use l)) -> s_use y = true ->
  (In y (pull_first k l) <-> In y l /\ s_key y <> k).
Proof.
  intros k l y; induction l as [|z r IH]; cbn; intros N Uy; [tauto|].
  destruct (s_use z && key_eqb (s_key z) k) eqn:B.
  - apply andb_true_iff in B. destruct B as [Uz B]. apply key_eqb_eq in B.
    rewrite Uz in N. cbn in N. inversion N as [|a b N1 N2]; subst. cbn. split.
    + intros [<-|H]; [discriminate|]. split; auto. intros Q. apply N1. rewrite <- Q.
      apply in_map, filter_In. auto.
    + intros [[->|H] Q]; [congruence|auto].
  - assert (N' : NoDup (map s_key (filter s_use r)))
      by (destruct (s_use z); auto; now inversion N).
    cbn. rewrite (IH N' Uy). split.
    + intros [->|[H Q]]; [|auto]. split; auto. intros Q. rewrite Uy in B. cbn in B.
      apply key_eqb_eq in Q. congruence.
    + intros [[->|H] Q]; auto.
Qed.

(** Pulling: the sub-slot is empty, every other one is as before, and the
    connection that owned it, if any, is sent a pull alarm.  Pulling from an
    empty sub-slot has no effect. *)
Theorem C57_pull : forall m n k,
  reachable m answers_consistently n ->
  let n' := step m (IPull k) n in
  (forall j, n_ars n' j = n_ars n j) /\ n_order n' = n_order n /\ empty_at n' k /\
  (forall k' md id o, k' <> k -> (plugged_in n' k' md id o <-> plugged_in n k' md id o)) /\
  (forall md id j, plugged_in n k md id (Some j) -> effects m (IPull k) n [OPullAlarm j k]) /\
  (forall md id, plugged_in n k md id None -> effects m (IPull k) n []) /\
  (empty_at n k -> n' = n).
Proof.
  intros m n k R n'. pose proof (kinv_run R) as K.
  unfold n', effects. cbn [step]. unfold pull.
  destruct (find_sub k (n_subs n)) as [y|] eqn:F.
  - pose proof F as Fs.
    apply find_some in F. destruct F as [F1 F2]. apply andb_true_iff in F2. destruct F2 as [Uy Ky].
    apply key_eqb_eq in Ky.
    assert (Sub : n_subs (match s_owner y with
        | Some j => emit (OPullAlarm j k) (setsubs (pull_first k (n_subs n)) n)
        | None => setsubs (pull_first k (n_subs n)) n end) = pull_first k (n_subs n))
      by (destruct (s_owner y); reflexivity).
    assert (Own : forall md id o, plugged_in n k md id o -> s_owner y = o).
    { intros md id o H. pose proof (kinv_find (k := k) (mkSub true k md id o) K H eq_refl eq_refl) as Q.
      rewrite Fs in Q. injection Q as ->. reflexivity. }
    split; [destruct (s_owner y); reflexivity|].
    split; [destruct (s_owner y); reflexivity|].
    split.
    { intros md id o H. unfold plugged_in in H. rewrite Sub in H.
      apply pull_first_in in H; auto. now apply (proj2 H). }
    split.
    { intros k' md id o Hk. unfold plugged_in. rewrite Sub.
      rewrite pull_first_in; auto. cbn. tauto. }
    split; [|split].
    + intros md id j H. rewrite (Own _ _ _ H). reflexivity.
    + intros md id H. rewrite (Own _ _ _ H). reflexivity.
    + intros E. exfalso. apply find_sub_empty in E. congruence.
  - pose proof (proj2 (find_sub_empty n k) F) as E.
    split; [auto|]. split; [auto|]. split; [auto|]. split; [tauto|]. split; [|split; auto].
    + intros md id j H. now apply E in H.
Qed.

(** Plugging into a sub-slot that is in use changes nothing (here: the
    application has not pulled the previous sub-module). *)
Example C57_case :
  plugged_in (run 2 to_data net0) k1 10 20 (Some 0) /\
  effects 2 (IPull k1) (run 2 to_data net0) [OPullAlarm 0 k1] /\
  effects 2 (IPlug k1 10 20) (run 2 (to_data ++ [IPull k1]) net0) [OPlugAlarm 0 k1 true].
Proof. split; [vm_compute; auto|split; vm_compute; reflexivity]. Qed.

Print Assumptions C56_ends.
Print Assumptions C57_plug.
Print Assumptions C57_pull.
