(** Executions of the scheduler model and a boolean checker for concrete ones
    (used by the examples in SchedProps.v). *)
From Coq Require Import List ZArith Arith Bool Lia.
From Verif Require Import Base SchedModel SchedLists SchedSpec SchedProofs SchedInv.
Import ListNotations.
Local Open Scope Z_scope.
Set Bullet Behavior "Strict Subproofs".

Definition ev_over (g : nat) (e : event) : bool :=
  match e with
  | EvFail h => Nat.eqb h g
  | EvRemoved h => Nat.eqb h g
  | EvFired h _ _ _ => Nat.eqb h g
  | _ => false
  end.

Lemma over_bool : forall log g, over log g <-> existsb (ev_over g) log = true.
Proof.
  intros log g. rewrite existsb_exists. split.
  - intros [H|[H|(cb & arg & t & H)]]; eexists; (split; [exact H|simpl; apply Nat.eqb_refl]).
  - intros (e & He & E). destruct e; simpl in E; try discriminate;
      apply Nat.eqb_eq in E; subst.
    + left; auto.
    + right; left; auto.
    + right; right. do 3 eexists; eauto.
Qed.

Definition ev_armed_at (g ix : nat) (e : event) : bool :=
  match e with EvArmed h i => Nat.eqb h g && Nat.eqb i ix | _ => false end.
Definition ev_call_name (g : nat) (name : Z) (e : event) : bool :=
  match e with EvCall h _ _ n _ _ => Nat.eqb h g && (n =? name) | _ => false end.
Definition ev_call_ok (clk0 : Z) (e : event) : bool :=
  match e with
  | EvCall _ _ _ _ delay t => (clk0 <=? t) && (0 <=? delay) && (delay <? 4294967296)
  | _ => true
  end.

Definition own_handleb (cap : nat) (s : sys) (name idx : Z) (g : nat) : bool :=
  (idx =? 0) || (Z.of_nat cap <? idx) ||
  negb (e_inuse (y_mem s (Z.to_nat (idx - 1)))) ||
  ((0 <? idx) && existsb (ev_armed_at g (Z.to_nat (idx - 1))) (y_log s) &&
   negb (existsb (ev_over g) (y_log s)) && existsb (ev_call_name g name) (y_log s)).

Definition allowedb (cap : nat) (clk0 : Z) (s : sys) (l : label) : bool :=
  (0 <? y_cycle s) && (y_cycle s <=? 2000000000) &&
  (y_clk s <=? clk0 + max_lag (y_cycle s)) &&
  forallb (ev_call_ok clk0) (y_log s) &&
  match y_tick s with None => true | Some t => clk0 <=? t end &&
  match l with
  | LAddCall _ delay _ _ _ => (0 <=? delay) && (delay <? 4294967296)
  | LRemove name idx g => (0 <=? idx) && (idx <? 4294967296) && own_handleb cap s name idx g
  | _ => true
  end.

Lemma own_handleb_ok : forall cap s name idx g,
  own_handleb cap s name idx g = true -> own_handle cap s name idx g.
Proof.
  intros cap s name idx g H. unfold own_handleb in H. unfold own_handle.
  rewrite !orb_true_iff, !andb_true_iff, !negb_true_iff in H.
  destruct H as [[[H|H]|H]|(((H0 & H1) & H2) & H3)].
  - apply Z.eqb_eq in H. auto.
  - apply Z.ltb_lt in H. auto.
  - auto.
  - left. apply existsb_exists in H1. destruct H1 as (e & He & Ee).
    destruct e; simpl in Ee; try discriminate. apply andb_true_iff in Ee.
    destruct Ee as (E1 & E2). apply Nat.eqb_eq in E1, E2. subst gen ix.
    apply existsb_exists in H3. destruct H3 as (e & He3 & Ee).
    destruct e; simpl in Ee; try discriminate. apply andb_true_iff in Ee.
    destruct Ee as (E1 & E2). apply Nat.eqb_eq in E1. apply Z.eqb_eq in E2. subst.
    exists (Z.to_nat (idx - 1)), cb, arg, delay, at_.
    split; [exact He|]. split.
    + split; [eauto|]. rewrite over_bool. congruence.
    + split; [exact He3|]. apply Z.ltb_lt in H0. lia.
Qed.

Lemma allowedb_ok : forall cap clk0 s l, allowedb cap clk0 s l = true -> allowed cap s l.
Proof.
  intros cap clk0 s l H. unfold allowedb in H. rewrite !andb_true_iff in H.
  destruct H as (((((H1 & H2) & H3) & H4) & H5) & H6).
  apply Z.ltb_lt in H1. apply Z.leb_le in H2, H3.
  split; [split|].
  - intros g d (cb & arg & name & delay & t & sd & C & S & E) _.
    rewrite forallb_forall in H4. apply H4 in C. simpl in C.
    rewrite !andb_true_iff in C. destruct C as ((C1 & C2) & C3).
    apply Z.leb_le in C1, C2. apply Z.ltb_lt in C3.
    destruct (sanitize_range delay (y_cycle s)) as (sd' & S' & B); try lia.
    rewrite S in S'. inversion S'; subst. lia.
  - intros t0 E. rewrite E in H5. apply Z.leb_le in H5. lia.
  - destruct l; auto.
    + apply andb_true_iff in H6. destruct H6 as (A & B).
      apply Z.leb_le in A. apply Z.ltb_lt in B. lia.
    + rewrite !andb_true_iff in H6. destruct H6 as ((A & B) & C).
      apply Z.leb_le in A. apply Z.ltb_lt in B. split; [lia|]. apply own_handleb_ok; auto.
Qed.

Fixpoint runb (cap : nat) (clk0 : Z) (s : sys) (ls : list label) : option sys :=
  match ls with
  | [] => Some s
  | l :: ls' =>
    if allowedb cap clk0 s l then
      match step cap s l with Ok s' => runb cap clk0 s' ls' | _ => None end
    else None
  end.

Definition start (cap : nat) (cycle clk0 : Z) (ls : list label) : option sys :=
  match init cap cycle clk0 with Ok s => runb cap clk0 s ls | _ => None end.

Lemma runb_reach : forall cap cycle clk0 ls s s',
  reach cap cycle clk0 s -> runb cap clk0 s ls = Some s' -> reach cap cycle clk0 s'.
Proof.
  induction ls; intros s s' R H; simpl in H.
  - inversion H; subst; auto.
  - destruct (allowedb cap clk0 s a) eqn:A; [|discriminate].
    destruct (step cap s a) as [s2| |] eqn:S; try discriminate.
    eapply IHls; [|exact H]. eapply reach_step; eauto. eapply allowedb_ok; eauto.
Qed.

Lemma start_reach : forall cap cycle clk0 ls s,
  start cap cycle clk0 ls = Some s -> reach cap cycle clk0 s.
Proof.
  intros cap cycle clk0 ls s H. unfold start in H.
  destruct (init cap cycle clk0) eqn:E; try discriminate.
  eapply runb_reach; [|exact H]. constructor. auto.
Qed.

(** ** Executions *)

Inductive exec (cap : nat) : sys -> list label -> sys -> Prop :=
| exec_nil : forall s, exec cap s [] s
| exec_cons : forall s l s1 ls s2, allowed cap s l -> step cap s l = Ok s1 ->
    exec cap s1 ls s2 -> exec cap s (l :: ls) s2.

Lemma exec_reach : forall cap cyc clk0 s ls s',
  exec cap s ls s' -> reach cap cyc clk0 s -> reach cap cyc clk0 s'.
Proof. intros cap cyc clk0 s ls s' E. induction E; intros R; auto. apply IHE. eapply reach_step; eauto. Qed.

(** What one step does to the log, the clock and the tick. *)
Lemma step_log : forall cap s l s' busy freel,
  Z.of_nat cap <= 65536 -> Inv cap s busy freel -> allowed cap s l ->
  step cap s l = Ok s' -> l <> LTickEnd ->
  y_clk s <= y_clk s' /\
  (y_tick s = None \/ y_tick s' = y_tick s) /\
  (y_log s' = y_log s \/ exists ev, y_log s' = ev :: y_log s /\
    match ev with
    | EvCall g _ _ _ delay t => t = y_clk s
    | EvFired g _ _ t => t = y_clk s /\ armed (y_log s) g /\ exists now d, y_tick s = Some now /\
         due_at (y_cycle s) (y_log s) g d /\ d <= now
    | _ => True
    end).
Proof.
  intros cap s l s' busy freel Hc I (T & A) S NL. destruct l; simpl in *.
  - inversion S; subst; simpl. split; [lia|]. auto.
  - unfold add_call in S. destruct (find_fly tid (y_fly s)).
    + inversion S; subst. split; [lia|auto].
    + destruct (sanitize_delay delay (y_cycle s) true); simpl in S; try discriminate.
      inversion S; subst; simpl. split; [lia|]. split; [auto|]. right. eexists.
      split; [reflexivity|]. reflexivity.
  - unfold add_take in S. destruct (find_fly tid (y_fly s)); [|inversion S; subst; split; [lia|auto]].
    destruct (i_stage i); try (inversion S; subst; split; [lia|auto]; fail).
    destruct (unlink cap (y_mem s) (y_free s) (y_free s)); simpl in S; try discriminate.
    destruct (negb (Nat.ltb (y_free s) cap)); inversion S; subst; simpl; (split; [lia|]); (split; [auto|]);
      try (left; reflexivity); right; eexists; (split; [reflexivity|exact Logic.I]).
  - unfold add_fill in S. destruct (find_fly tid (y_fly s)); [|inversion S; subst; split; [lia|auto]].
    destruct (i_stage i); inversion S; subst; simpl; (split; [lia|split; [auto|left; reflexivity]]).
  - unfold add_finish in S. destruct (find_fly tid (y_fly s)); [|inversion S; subst; split; [lia|auto]].
    destruct (i_stage i); try (inversion S; subst; split; [lia|auto]; fail).
    destruct (add_link cap (y_mem s) (y_first s) (i_ix i)); simpl in S; try discriminate.
    inversion S; subst; simpl. split; [lia|]. split; [auto|].
    right; eexists; split; [reflexivity|exact Logic.I].
  - unfold remove in S.
    destruct ((idx =? 0) || (Z.of_nat cap <? idx)); [inversion S; subst; split; [lia|auto]|].
    cbv zeta in S.
    destruct (negb (e_name (y_mem s (Z.to_nat (u16 (idx - 1)))) =? name));
      [inversion S; subst; split; [lia|auto]|].
    destruct (negb (e_inuse (y_mem s (Z.to_nat (u16 (idx - 1))))));
      [inversion S; subst; split; [lia|auto]|].
    destruct (unlink _ _ _ _); simpl in S; try discriminate.
    destruct (link_before _ _ _ _ _); simpl in S; try discriminate.
    inversion S; subst; simpl. split; [lia|]. split; [auto|].
    right; eexists; split; [reflexivity|exact Logic.I].
  - destruct (y_tick s) eqn:ET; inversion S; subst; simpl; (split; [lia|split; [auto|left; reflexivity]]).
  - destruct (tick_pop_inv cap s busy freel I T) as (s2 & b' & f' & E & I' & D).
    rewrite S in E. inversion E; subst s2; clear E.
    destruct D as [->|(now & ix & l & E1 & E2 & E3 & E4 & E5 & E6 & E7 & E8 & E9)].
    + split; [lia|auto].
    + assert (Hi : In ix busy) by (rewrite E2; left; auto).
      pose proof (inv_busy_ok _ _ _ _ I ix Hi) as (_ & _ & B3 & B4 & B5).
      split; [|split; [auto|]].
      * unfold tick_pop in S. rewrite E1 in S. destruct (tick_cond cap s now);
          [|inversion S; lia].
        destruct (unlink _ _ _ _); simpl in S; try discriminate.
        destruct (link_before _ _ _ _ _); simpl in S; try discriminate.
        inversion S; subst; simpl. lia.
      * right. eexists. split; [exact E9|]. simpl. split; [auto|]. split; [split; eauto|].
        exists now, (e_due (y_mem s ix)). split; auto. split; auto. eapply call_info_due; eauto.
  - congruence.
Qed.

Definition fired_gens (log : list event) : list nat :=
  flat_map (fun e => match e with EvFired g _ _ _ => [g] | _ => [] end) log.

Lemma in_fired_gens : forall log g, In g (fired_gens log) <-> fired log g.
Proof.
  intros. unfold fired_gens. rewrite in_flat_map. split.
  - intros (e & He & H). destruct e; simpl in H; try tauto. destruct H as [<-|[]].
    do 3 eexists; eauto.
  - intros (cb & arg & t & H). eexists. split; [exact H|]. left; auto.
Qed.

Lemma log_ok_fired_nodup : forall cyc log, log_ok cyc log -> NoDup (fired_gens log).
Proof.
  induction log as [|e log]; intros H; simpl in *; [constructor|].
  destruct H as (H & E). destruct e; simpl; auto.
  constructor; auto. intros F. apply in_fired_gens in F.
  destruct E as ((_ & NO) & _). apply NO. right; right; auto.
Qed.

Lemma log_ok_app : forall cyc l1 l2, log_ok cyc (l1 ++ l2) -> log_ok cyc l2.
Proof. induction l1; intros l2 H; simpl in *; auto. apply IHl1. tauto. Qed.

(** While a tick with start time [now] runs, all timers it fires were already
    called for and not over when it started. *)
Lemma tick_exec : forall cap cyc clk0 now s ls s',
  Z.of_nat cap <= 65536 -> 0 < cyc <= 2000000000 ->
  exec cap s ls s' -> reach cap cyc clk0 s -> ~ In LTickEnd ls ->
  y_tick s = Some now -> 
  exists newer, y_log s' = newer ++ y_log s /\
    (forall g cb arg name delay t, In (EvCall g cb arg name delay t) newer -> now <= t) /\
    (forall g, fired newer g -> exists d, due_at cyc (y_log s') g d /\ d <= now).
Proof.
  intros cap cyc clk0 now s ls s' Hc Hy E. induction E; intros R NI TK.
  - exists []. simpl. split; auto. split; [tauto|]. intros g (?&?&?&[]).
  - destruct (reach_inv _ _ _ _ Hc Hy R) as (busy & freel & I & EC).
    assert (NL : l <> LTickEnd) by (intros ->; apply NI; left; auto).
    destruct (step_log _ _ _ _ _ _ Hc I H H0 NL) as (Cl & Tk & L).
    assert (TK1 : y_tick s1 = Some now) by (destruct Tk as [Tk|Tk]; congruence).
    assert (R1 : reach cap cyc clk0 s1) by (eapply reach_step; eauto).
    assert (NI1 : ~ In LTickEnd ls) by (intro; apply NI; right; auto).
    destruct (IHE R1 NI1 TK1) as (nw & E1 & C1 & F1).
    pose proof (inv_tick _ _ _ _ I _ TK) as TL.
    destruct L as [L|(ev & L & P)].
    + exists nw. rewrite E1, L. split; auto. split; auto. rewrite <- L, <- E1. auto.
    + exists (nw ++ [ev]). rewrite <- app_assoc. simpl. rewrite <- L. split; auto. split.
      * intros g cb arg name delay t Hi. apply in_app_iff in Hi. destruct Hi as [Hi|[Hi|[]]].
        -- eapply C1; eauto.
        -- subst ev. lia.
      * intros g (cb & arg & t & Hi). apply in_app_iff in Hi. destruct Hi as [Hi|[Hi|[]]].
        -- apply F1. do 3 eexists; eauto.
        -- subst ev. destruct P as (_ & _ & n & d & P1 & P2 & P3). exists d.
           split; [|congruence]. rewrite E1, L. rewrite EC in P2.
           destruct P2 as (c & a & nm & dl & tt & sd & Q1 & Q2).
           exists c, a, nm, dl, tt, sd. split; auto. apply in_app_iff. right. right. exact Q1.
Qed.
