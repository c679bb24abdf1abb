(** Properties C01-C07: the timer scheduler (pf_scheduler.c).

    [reach cap cycle clk0 s] : [s] is reached from pf_scheduler_init by any
    interleaving of the critical sections of pf_scheduler_add (any number of
    threads), pf_scheduler_remove and pf_scheduler_tick, where the clock never
    leaves a due timer or a running tick unserved for more than [max_lag], and
    handles are used as in [own_handle].  All statements are about the history
    [y_log s] of calls and callbacks. *)
From Coq Require Import List ZArith Arith Bool Lia Permutation.
From Verif Require Import Base SchedModel SchedLists SchedSpec SchedProofs SchedInv SchedExec.
Import ListNotations.
Local Open Scope Z_scope.
Set Bullet Behavior "Strict Subproofs".

Section Sched.
Variables (cap : nat) (cycle clk0 : Z).
Hypothesis Hcap : Z.of_nat cap <= 65536.
Hypothesis Hcycle : 0 < cycle <= 2000000000.

(** ** C01 *)
Theorem C01_timer_never_early : forall s g cb arg t,
  reach cap cycle clk0 s -> In (EvFired g cb arg t) (y_log s) ->
  exists name delay tc sd,
    In (EvCall g cb arg name delay tc) (y_log s) /\
    sanitize_delay delay cycle true = Ok sd /\ tc + sd <= t.
Proof.
  intros s g cb arg t R H.
  destruct (reach_inv _ _ _ _ Hcap Hcycle R) as (b & f & I & E).
  apply in_split in H. destruct H as (l1 & l2 & EL).
  pose proof (inv_log _ _ _ _ I) as L. rewrite EL in L. apply log_ok_app in L.
  destruct L as (_ & _ & (name & delay & tc & sd & C & S & LE) & _).
  rewrite E in S. exists name, delay, tc, sd. split; auto.
  rewrite EL. apply in_app_iff. right; right; auto.
Qed.

(** ** C02 *)
Theorem C02_tick_leaves_no_due_timer : forall s s' now,
  reach cap cycle clk0 s -> timely s -> y_tick s = Some now ->
  step cap s LTickEnd = Ok s' -> y_tick s' = None ->
  forall g d, armed (y_log s') g -> due_at cycle (y_log s') g d -> now < d.
Proof.
  intros s s' now R T TK S TE g d A D.
  destruct (reach_inv _ _ _ _ Hcap Hcycle R) as (b & f & I & E).
  simpl in S. rewrite TK in S. destruct (tick_cond cap s now) eqn:TC.
  - inversion S; subst. congruence.
  - inversion S; subst s'; clear S. simpl in *.
    destruct (proj1 (inv_armed_busy _ _ _ _ g I) A) as (i & Hi & Eg).
    pose proof (inv_busy_ok _ _ _ _ I i Hi) as (_ & _ & J & _).
    assert (d = e_due (y_mem s i)).
    { eapply inv_due_unique; eauto; rewrite <- ?Eg; [rewrite E, Eg; exact D|eapply call_info_due; eauto]. }
    subst d. destruct (Z.lt_ge_cases now (e_due (y_mem s i))); auto. exfalso.
    destruct b as [|ix l]; [destruct Hi|].
    assert (TC2 : tick_cond cap s now = true).
    { apply (tick_cond_spec _ _ _ _ _ I T TK). exists ix, l. split; auto.
      pose proof (StronglySorted_hd _ (fun i j => e_due (y_mem s i) <= e_due (y_mem s j)) ix l i
               (fun z => Z.le_refl _) (inv_sorted _ _ _ _ I) Hi) as LE. simpl in LE. lia. }
    congruence.
Qed.

Theorem C02_callbacks_in_due_order : forall s newer older g cb arg t,
  reach cap cycle clk0 s -> y_log s = newer ++ EvFired g cb arg t :: older ->
  armed older g /\
  forall g' d d', armed older g' ->
    due_at cycle older g d -> due_at cycle older g' d' -> d <= d'.
Proof.
  intros s newer older g cb arg t R EL.
  destruct (reach_inv _ _ _ _ Hcap Hcycle R) as (b & f & I & E).
  pose proof (inv_log _ _ _ _ I) as L. rewrite EL, E in L. apply log_ok_app in L.
  destruct L as (_ & A & _ & O). auto.
Qed.

(** The loop of the tick makes progress: as long as some armed timer is due
    the next iteration calls exactly one callback. *)
Theorem C02_tick_iteration_fires : forall s now g d,
  reach cap cycle clk0 s -> timely s -> y_tick s = Some now ->
  armed (y_log s) g -> due_at cycle (y_log s) g d -> d <= now ->
  exists s' g' cb arg, step cap s LTickPop = Ok s' /\
    y_log s' = EvFired g' cb arg (y_clk s) :: y_log s.
Proof.
  intros s now g d R T TK A D LE.
  destruct (reach_inv _ _ _ _ Hcap Hcycle R) as (b & f & I & E).
  destruct (tick_pop_inv cap s b f I T) as (s' & b' & f' & S & I' & [->|X]).
  - exfalso. unfold tick_pop in S. rewrite TK in S.
    destruct (tick_cond cap s now) eqn:TC.
    + destruct (unlink _ _ _ _); simpl in S; try discriminate.
      destruct (link_before _ _ _ _ _); simpl in S; try discriminate.
      inversion S. apply (f_equal (fun x => length (y_log x))) in H0. simpl in H0. lia.
    + destruct (proj1 (inv_armed_busy _ _ _ _ g I) A) as (i & Hi & Eg).
      pose proof (inv_busy_ok _ _ _ _ I i Hi) as (_ & _ & J & _).
      assert (d = e_due (y_mem s i)).
      { eapply inv_due_unique; eauto; rewrite <- ?Eg; [rewrite E, Eg; exact D|eapply call_info_due; eauto]. }
      destruct b as [|ix l]; [destruct Hi|].
      assert (TC2 : tick_cond cap s now = true).
      { apply (tick_cond_spec _ _ _ _ _ I T TK). exists ix, l. split; auto.
        pose proof (StronglySorted_hd _ (fun i j => e_due (y_mem s i) <= e_due (y_mem s j)) ix l i
                 (fun z => Z.le_refl _) (inv_sorted _ _ _ _ I) Hi) as LE2. simpl in LE2. lia. }
      congruence.
  - destruct X as (n & ix & l & E1 & E2 & E3 & E4 & E5 & E6 & E7 & E8 & E9).
    exists s'. do 3 eexists. split; [exact S|exact E9].
Qed.

(** ** C03 *)
(** [chain m q l]: following the next links from [q] visits exactly [l]. *)
Fixpoint chain (m : mem) (q : nat) (l : list nat) : Prop :=
  match l with
  | [] => ~ (q < cap)%nat
  | i :: l' => q = i /\ (i < cap)%nat /\ chain m (e_next (m i)) l'
  end.

Lemma seg_chain : forall m l p q p', seg cap m p q l p' cap -> chain m q l.
Proof.
  induction l; intros p q p' H; simpl in *.
  - destruct H as (_ & ->). lia.
  - destruct H as (-> & H1 & _ & H2). split; auto. split; auto. eapply IHl; eauto.
Qed.

(** Slots held by threads that are inside pf_scheduler_add. *)
Definition held (s : sys) : list nat :=
  flat_map (fun f => match i_stage f with Called => [] | _ => [i_ix f] end) (y_fly s).

Theorem C03_slots_partitioned : forall s,
  reach cap cycle clk0 s ->
  exists free busy,
    chain (y_mem s) (y_free s) free /\ chain (y_mem s) (y_first s) busy /\
    Permutation (free ++ busy ++ held s) (seq 0 cap) /\
    (forall i, In i busy <-> exists g, armed (y_log s) g /\ In (EvArmed g i) (y_log s)).
Proof.
  intros s R. destruct (reach_inv _ _ _ _ Hcap Hcycle R) as (b & f & I & E).
  exists f, b.
  destruct (inv_free _ _ _ _ I) as (p1 & D1). destruct (inv_busy _ _ _ _ I) as (p2 & D2).
  split; [eapply seg_chain; eauto|]. split; [eapply seg_chain; eauto|]. split.
  - assert (P : Permutation (f ++ b ++ held s) (b ++ f ++ fly_slots (y_fly s))).
    { change (held s) with (fly_slots (y_fly s)). rewrite !app_assoc.
      apply Permutation_app_tail. apply Permutation_app_comm. }
    rewrite P. apply NoDup_Permutation_bis.
    + apply (inv_nodup _ _ _ _ I).
    + rewrite seq_length. rewrite (inv_len _ _ _ _ I). auto.
    + intros i Hi. apply in_seq. split; [lia|]. simpl.
      apply in_app_iff in Hi. destruct Hi as [Hi|Hi].
      * eapply dl_lt; [apply (inv_busy _ _ _ _ I)|auto].
      * apply in_app_iff in Hi. destruct Hi as [Hi|Hi].
        -- eapply dl_lt; [apply (inv_free _ _ _ _ I)|auto].
        -- apply (inv_fly_lt _ _ _ _ I); auto.
  - intros i. split.
    + intros Hi. pose proof (inv_busy_ok _ _ _ _ I i Hi) as (_ & _ & _ & A & NO).
      exists (e_gen (y_mem s i)). split; auto. split; eauto.
    + intros (g & A & EA). destruct (proj1 (inv_armed_busy _ _ _ _ g I) A) as (j & Hj & Eg).
      pose proof (inv_busy_ok _ _ _ _ I j Hj) as (_ & _ & _ & A' & _). rewrite Eg in A'.
      rewrite (log_ok_armed_uniq _ _ _ _ _ (inv_log _ _ _ _ I) EA A'). auto.
Qed.

Theorem C03_add_fails_iff_no_free_slot : forall s s' tid f,
  reach cap cycle clk0 s ->
  find_fly tid (y_fly s) = Some f -> i_stage f = Called ->
  step cap s (LAddTake tid) = Ok s' ->
  (failed (y_log s') (i_gen f) <-> chain (y_mem s) (y_free s) []).
Proof.
  intros s s' tid f R F St S.
  destruct (reach_inv _ _ _ _ Hcap Hcycle R) as (b & fr & I & E).
  simpl in S. unfold add_take in S. rewrite F, St in S.
  destruct (unlink cap (y_mem s) (y_free s) (y_free s)) eqn:U; simpl in S; try discriminate.
  unfold failed, chain. destruct (Nat.ltb_spec (y_free s) cap) as [L|L]; simpl in S.
  - inversion S; subst; simpl. split; [|lia]. intros H. exfalso.
    destruct (find_fly_perm _ _ _ (inv_tids _ _ _ _ I) F) as (_ & _ & Hf).
    destruct (inv_fly_ok _ _ _ _ I f Hf) as (_ & _ & NO & _). apply NO. left; auto.
  - inversion S; subst; simpl. split; [lia|auto].
Qed.

Theorem C03_no_assertion_no_runaway : forall s l,
  reach cap cycle clk0 s -> allowed cap s l -> exists s', step cap s l = Ok s'.
Proof.
  intros s l R A. destruct (reach_inv _ _ _ _ Hcap Hcycle R) as (b & f & I & E).
  destruct (step_inv _ _ _ _ _ Hcap I A) as (s' & _ & _ & H & _). eauto.
Qed.

(** ** C04 *)
Theorem C04_cancelled_timer_never_fires : forall s newer older g cb arg t,
  reach cap cycle clk0 s -> y_log s = newer ++ EvFired g cb arg t :: older ->
  ~ cancelled older g /\ ~ fired older g /\ ~ failed older g /\
  ~ cancelled newer g /\ ~ fired newer g.
Proof.
  intros s newer older g cb arg t R EL.
  destruct (reach_inv _ _ _ _ Hcap Hcycle R) as (b & f & I & E).
  pose proof (inv_log _ _ _ _ I) as L. rewrite EL, E in L.
  pose proof (log_ok_app _ _ _ L) as L2. destruct L2 as (_ & (_ & NO) & _).
  unfold over in NO. split; [tauto|]. split; [tauto|]. split; [tauto|].
  clear EL. split.
  - intros C. apply in_split in C. destruct C as (n1 & n2 & ->).
    rewrite <- app_assoc in L. apply log_ok_app in L. simpl in L.
    destruct L as (_ & _ & NO2). apply NO2. right; right. do 3 eexists.
    apply in_app_iff. right; left; reflexivity.
  - intros (c & a & t' & C). apply in_split in C. destruct C as (n1 & n2 & ->).
    rewrite <- app_assoc in L. apply log_ok_app in L. simpl in L.
    destruct L as (_ & (_ & NO2) & _). apply NO2. right; right. do 3 eexists.
    apply in_app_iff. right; left; reflexivity.
Qed.

(** ** C05 *)
Theorem C05_sanitised_delay : forall wanted half,
  0 <= wanted < 4294967296 ->
  exists k d, sanitize_delay wanted cycle half = Ok d /\
    1 <= k /\ d = k * cycle - (if half then cycle / 2 else 0) /\
    1 <= d <= max_delay + cycle /\
    (cycle + cycle / 2 < wanted <= max_delay -> 2 * Z.abs (k * cycle - wanted) <= cycle) /\
    (wanted <= cycle + cycle / 2 \/ max_delay < wanted -> k = 1).
Proof.
  intros w h Hw. destruct (sanitize_ok w cycle h Hw Hcycle) as (k & K1 & K2 & K3 & K4 & K5).
  exists k. eexists. split; [exact K2|]. split; auto. split; auto.
  assert (HC : cycle = 2 * (cycle / 2) + cycle mod 2) by (apply Z.div_mod; lia).
  assert (HM : 0 <= cycle mod 2 < 2) by (apply Z.mod_pos_bound; lia).
  split; [|split].
  - unfold max_delay in *. destruct h; nia.
  - intros Hr. assert (k = (w + cycle / 2) / cycle) by (apply K3; lia).
    assert (D := Z.div_mod (w + cycle / 2) cycle ltac:(lia)).
    assert (M := Z.mod_pos_bound (w + cycle / 2) cycle ltac:(lia)).
    rewrite <- H in D. nia.
  - intros [H|H]; apply K4; lia.
Qed.

(** ** C06 *)
Definition outstanding (log : list event) (g : nat) : Prop :=
  (exists cb arg name delay t, In (EvCall g cb arg name delay t) log) /\ ~ over log g.

Theorem C06_tick_is_bounded : forall s0 s1 ls s,
  reach cap cycle clk0 s0 -> timely s0 -> y_tick s0 = None ->
  step cap s0 LTickStart = Ok s1 ->
  exec cap s1 ls s -> ~ In LTickEnd ls ->
  exists newer G, y_log s = newer ++ y_log s0 /\
    NoDup G /\ (forall g, In g G <-> outstanding (y_log s0) g) /\
    (forall g, fired newer g -> In g G) /\
    (length (fired_gens newer) <= length G)%nat /\
    (length G <= cap + length (y_fly s0))%nat.
Proof.
  intros s0 s1 ls s R T TK S X NI.
  assert (R1 : reach cap cycle clk0 s1). { eapply reach_step; eauto. split; simpl; auto. }
  pose proof (exec_reach _ _ _ _ _ _ X R1) as Rs.
  assert (S' := S). simpl in S'. rewrite TK in S'. inversion S'; subst s1; clear S'.
  destruct (tick_exec _ _ _ (y_clk s0) _ _ _ Hcap Hcycle X R1 NI eq_refl) as (newer & EL & C & F).
  simpl in EL.
  destruct (reach_inv _ _ _ _ Hcap Hcycle R) as (b & f & I & E).
  destruct (reach_inv _ _ _ _ Hcap Hcycle Rs) as (bs & fs & Is & Es).
  set (G := map (fun i => e_gen (y_mem s0 i)) b ++ map i_gen (y_fly s0)).
  assert (GI : forall g, In g G <-> outstanding (y_log s0) g).
  { intros g. unfold G. rewrite in_app_iff, !in_map_iff. split.
    - intros [(i & Eg & Hi)|(x & Eg & Hx)].
      + destruct (inv_busy_ok _ _ _ _ I i Hi) as (_ & _ & (d & t & sd & Q & _) & _ & NO).
        subst g. split; auto. do 5 eexists; eauto.
      + destruct (inv_fly_ok _ _ _ _ I x Hx) as (_ & (d & t & sd & Q & _) & NO & _).
        subst g. split; auto. do 5 eexists; eauto.
    - intros ((cb & arg & name & delay & t & Q) & NO).
      destruct (inv_out _ _ _ _ I _ _ _ _ _ _ Q NO) as [(i & Hi & Eg)|(x & Hx & Eg)]; eauto. }
  assert (FG : forall g, fired newer g -> In g G).
  { intros g Fg. apply GI. destruct (F g Fg) as (d & (cb & arg & name & delay & t & sd & Q & SD & Ed) & LE).
    pose proof (inv_log _ _ _ _ Is) as L. rewrite EL, Es in L.
    split.
    - unfold was_called in Q. rewrite EL in Q. apply in_app_iff in Q. destruct Q as [Q|Q].
      + exfalso. apply C in Q as Q'.
        (* the delay is positive *)
        assert (Hd : 0 <= delay < 4294967296).
        { eapply log_ok_delay; [exact L|]. apply in_app_iff. left. exact Q. }
        destruct (sanitize_range delay cycle Hd Hcycle) as (sd' & SD' & B).
        rewrite SD in SD'. inversion SD'; subst.
        lia.
      + do 5 eexists; eauto.
    - intros O. destruct Fg as (c & a & t2 & Hf). apply in_split in Hf.
      destruct Hf as (n1 & n2 & En). rewrite En, <- app_assoc in L. apply log_ok_app in L.
      simpl in L. destruct L as (_ & (_ & NO) & _). apply NO.
      clear - O. destruct O as [O|[O|(x & y & z & O)]].
      + left. apply in_app_iff; auto.
      + right; left. apply in_app_iff; auto.
      + right; right. do 3 eexists. apply in_app_iff; eauto. }
  exists newer, G. split; auto. split; [apply (inv_gens _ _ _ _ I)|]. split; [auto|]. split; [auto|].
  split.
  - apply NoDup_incl_length.
    + pose proof (inv_log _ _ _ _ Is) as L. apply log_ok_fired_nodup in L.
      unfold fired_gens in *. rewrite EL, flat_map_app in L. eapply NoDup_app_remove_r; eauto.
    + intros g Hg. apply FG. apply in_fired_gens. auto.
  - unfold G. rewrite app_length, !map_length.
    pose proof (inv_len _ _ _ _ I) as LN. rewrite app_length in LN. lia.
Qed.

(** ** C07 *)
Theorem C07_remove_affects_only_own_timer : forall s s' name idx g,
  reach cap cycle clk0 s -> timely s -> 0 <= idx < 4294967296 ->
  own_handle cap s name idx g ->
  step cap s (LRemove name idx g) = Ok s' ->
  y_log s' = y_log s \/ (y_log s' = EvRemoved g :: y_log s /\ armed (y_log s) g).
Proof.
  intros s s' name idx g R T Hi OH S.
  destruct (reach_inv _ _ _ _ Hcap Hcycle R) as (b & f & I & E).
  destruct (remove_inv cap s b f name idx g Hcap I Hi OH) as (s2 & b' & f' & S2 & _ & L).
  simpl in S. rewrite S in S2. inversion S2; subst; auto.
Qed.

Theorem C07_remove_cancels_armed_timer : forall s name ix g cb arg delay t,
  reach cap cycle clk0 s -> timely s ->
  In (EvArmed g ix) (y_log s) -> armed (y_log s) g ->
  In (EvCall g cb arg name delay t) (y_log s) ->
  exists s', step cap s (LRemove name (Z.of_nat ix + 1) g) = Ok s' /\
    y_log s' = EvRemoved g :: y_log s.
Proof.
  intros s name ix g cb arg delay t R T EA A C.
  destruct (reach_inv _ _ _ _ Hcap Hcycle R) as (b & f & I & E).
  destruct (proj1 (inv_armed_busy _ _ _ _ g I) A) as (i & Hi & Eg).
  pose proof (inv_busy_ok _ _ _ _ I i Hi) as (U & _ & (d2 & t2 & sd & C2 & _) & A' & _).
  rewrite Eg in A', C2. rewrite (log_ok_armed_uniq _ _ _ _ _ (inv_log _ _ _ _ I) A' EA) in *.
  destruct (inv_uniq _ _ _ _ I _ _ _ _ _ _ _ _ _ _ _ C C2) as (_ & _ & EN & _).
  assert (Hix : (ix < cap)%nat) by (eapply dl_lt; [apply (inv_busy _ _ _ _ I)|auto]).
  destruct (remove_inv cap s b f name (Z.of_nat ix + 1) g Hcap I ltac:(lia)) as (s2 & b' & f' & S2 & _ & L).
  { left. exists ix, cb, arg, delay, t. auto. }
  exists s2. split; [exact S2|]. destruct L as [L|(L & _)]; auto. exfalso.
  unfold remove in S2.
  destruct (Z.eqb_spec (Z.of_nat ix + 1) 0); [lia|]. simpl in S2.
  destruct (Z.ltb_spec (Z.of_nat cap) (Z.of_nat ix + 1)); [lia|].
  assert (EU : Z.to_nat (u16 (Z.of_nat ix + 1 - 1)) = ix).
  { unfold u16. rewrite Z.mod_small by lia. lia. }
  cbv zeta in S2. rewrite EU in S2. rewrite <- EN in S2. rewrite Z.eqb_refl, U in S2. simpl in S2.
  destruct (unlink _ _ _ _); simpl in S2; try discriminate.
  destruct (link_before _ _ _ _ _); simpl in S2; try discriminate.
  inversion S2; subst s2. simpl in L. apply (f_equal (@length event)) in L. simpl in L. lia.
Qed.
End Sched.

(** ** Concrete executions *)

(** Three timers, one cancelled, across a wrap of the 32-bit clock; two fire. *)
Definition ex_add (tid : nat) (delay cb arg name : Z) : list label :=
  [LAddCall tid delay cb arg name; LAddTake tid; LAddFill tid; LAddLink tid].

Definition ex_run : list label :=
  ex_add 0 5000 10 1 100 ++ [LAddCall 2 3000 11 2 100] ++ ex_add 1 2000 12 3 100 ++
  [LAddTake 2; LAddFill 2; LAddLink 2; LRemove 100 2 2; LTime 6000;
   LTickStart; LTickPop; LTickPop; LTickPop; LTickEnd].

Definition ex_clk : Z := 4294967296 - 3000.

Example ex_history :
  option_map y_log (start 4 1000 ex_clk ex_run) =
  Some [EvFired 0 10 1 (ex_clk + 6000); EvFired 1 11 2 (ex_clk + 6000); EvRemoved 2;
        EvArmed 1 2; EvArmed 2 1; EvCall 2 12 3 100 2000 ex_clk;
        EvCall 1 11 2 100 3000 ex_clk; EvArmed 0 0; EvCall 0 10 1 100 5000 ex_clk].
Proof. vm_compute. reflexivity. Qed.

Lemma some_map : forall A B (f : A -> B) o v, option_map f o = Some v ->
  exists x, o = Some x /\ f x = v.
Proof. intros A B f [x|] v H; simpl in H; [exists x; inversion H; auto|discriminate]. Qed.

Lemma pair_eq : forall A B (a c : A) (b d : B), (a, b) = (c, d) -> a = c /\ b = d.
Proof. intros A B a c b d H. inversion H; auto. Qed.

(** The hypotheses of C01, C02 (order), C03 and C04 are met. *)
Example ex_reachable : exists s, reach 4 1000 ex_clk s /\
  In (EvFired 0 10 1 (ex_clk + 6000)) (y_log s) /\ cancelled (y_log s) 2.
Proof.
  destruct (some_map _ _ _ _ _ ex_history) as (s & E & H).
  exists s. split; [exact (start_reach _ _ _ _ _ E)|]. rewrite H.
  split; [left; reflexivity|]. right; right; left; reflexivity.
Qed.

(** The hypotheses of the tick theorems (C02, C06) are met: a tick that is
    about to end, and one that is about to start with a timer due. *)
Example ex_tick_end : exists s s', reach 4 1000 ex_clk s /\ timely s /\
  y_tick s = Some (ex_clk + 6000) /\ step 4 s LTickEnd = Ok s' /\ y_tick s' = None.
Proof.
  assert (H : option_map (fun s => (allowedb 4 ex_clk s LTickEnd, y_tick s,
      match step 4 s LTickEnd with Ok s' => Some (y_tick s') | _ => None end))
     (start 4 1000 ex_clk (removelast ex_run))
     = Some (true, Some (ex_clk + 6000), Some None)) by (vm_compute; reflexivity).
  apply some_map in H. destruct H as (s & E & H). cbv beta in H.
  apply pair_eq in H. destruct H as (H & T'). apply pair_eq in H. destruct H as (A & T).
  destruct (step 4 s LTickEnd) as [s'| |] eqn:S; [|discriminate T'|discriminate T'].
  injection T' as T'. exists s, s'. split; [exact (start_reach _ _ _ _ _ E)|].
  split; [apply (allowedb_ok _ _ _ _ A)|]. auto.
Qed.

Example ex_tick_start : exists s s1 s2, reach 4 1000 ex_clk s /\ timely s /\
  y_tick s = None /\ step 4 s LTickStart = Ok s1 /\ exec 4 s1 [LTickPop] s2 /\
  length (y_log s2) = S (length (y_log s)).
Proof.
  assert (H : option_map (fun s => (allowedb 4 ex_clk s LTickStart, y_tick s, length (y_log s),
      match step 4 s LTickStart with
      | Ok s1 => (allowedb 4 ex_clk s1 LTickPop,
          match step 4 s1 LTickPop with Ok s2 => Some (length (y_log s2)) | _ => None end)
      | _ => (false, None) end))
     (start 4 1000 ex_clk (firstn 14 ex_run))
     = Some (true, None, 7%nat, (true, Some 8%nat))) by (vm_compute; reflexivity).
  apply some_map in H. destruct H as (s & E & H). cbv beta in H.
  apply pair_eq in H. destruct H as (H & H2). apply pair_eq in H. destruct H as (H & N).
  apply pair_eq in H. destruct H as (A & T).
  destruct (step 4 s LTickStart) as [s1| |] eqn:S; [|discriminate H2|discriminate H2].
  apply pair_eq in H2. destruct H2 as (A1 & N2).
  destruct (step 4 s1 LTickPop) as [s2| |] eqn:S2; [|discriminate N2|discriminate N2].
  injection N2 as N2. exists s, s1, s2. split; [exact (start_reach _ _ _ _ _ E)|].
  split; [apply (allowedb_ok _ _ _ _ A)|]. split; auto. split; auto. split.
  - eapply exec_cons; [apply (allowedb_ok _ _ _ _ A1)|exact S2|constructor].
  - congruence.
Qed.

(** C05: a request of 10 ms with a 1 ms cycle. *)
Example ex_sanitize : sanitize_delay 10000 1000 true = Ok 9500 /\
  sanitize_delay 3700 1000 true = Ok 3500 /\ sanitize_delay 200000000 1000 false = Ok 1000.
Proof. vm_compute. auto. Qed.

(** C07 is false for a handle that was kept after its timer fired: the slot
    has been given to another timer of the same name, which gets cancelled. *)
Definition stale_run : list label :=
  ex_add 0 1000 10 1 100 ++ [LTime 2000; LTickStart; LTickPop; LTickEnd] ++
  ex_add 1 50000 20 2 100.

Theorem C07_stale_handle_refuted : exists s s' ix,
  reach 4 1000 0 s /\
  (* the handle of arming 0, whose timer has fired *)
  In (EvArmed 0 ix) (y_log s) /\ In (EvCall 0 10 1 100 1000 0) (y_log s) /\ fired (y_log s) 0 /\
  (* another timer, with another callback, is armed *)
  In (EvCall 1 20 2 100 50000 2000) (y_log s) /\ armed (y_log s) 1 /\
  step 4 s (LRemove 100 (Z.of_nat ix + 1) 0) = Ok s' /\ cancelled (y_log s') 1.
Proof.
  assert (H : option_map (fun s => (y_log s, match step 4 s (LRemove 100 1 0) with
              Ok s' => Some (y_log s') | _ => None end)) (start 4 1000 0 stale_run) =
    let l := [EvArmed 1 0; EvCall 1 20 2 100 50000 2000; EvFired 0 10 1 2000; EvArmed 0 0;
              EvCall 0 10 1 100 1000 0] in Some (l, Some (EvRemoved 1 :: l)))
    by (vm_compute; reflexivity).
  cbv zeta in H. apply some_map in H. destruct H as (s & E & H). cbv beta in H.
  apply pair_eq in H. destruct H as (L & S).
  destruct (step 4 s (LRemove 100 1 0)) as [s'| |] eqn:S'; [|discriminate S|discriminate S].
  injection S as S.
  exists s, s', O. split; [exact (start_reach _ _ _ _ _ E)|]. rewrite S, L. simpl Z.of_nat.
  split; [simpl; tauto|]. split; [simpl; tauto|]. split; [do 3 eexists; simpl; eauto|].
  split; [simpl; tauto|]. split; [|split; [exact S'|left; reflexivity]].
  split; [eexists; left; reflexivity|]. rewrite over_bool. vm_compute. discriminate.
Qed.

(** With a stale handle used while another thread is inside pf_scheduler_add,
    one slot ends up both armed and free. *)
Definition race_run : list label :=
  ex_add 0 1000 10 1 100 ++ [LTime 2000; LTickStart; LTickPop; LTickEnd] ++
  [LAddCall 1 50000 20 2 100; LAddTake 1; LAddFill 1].

Theorem C07_stale_handle_race_refuted : exists s s1 s2,
  reach 4 1000 0 s /\ fired (y_log s) 0 /\ In (EvArmed 0 0) (y_log s) /\
  step 4 s (LRemove 100 1 0) = Ok s1 /\ step 4 s1 (LAddLink 1) = Ok s2 /\
  (* pf_scheduler_add has returned 0 for timer 1 in slot 0, which is also free *)
  In (EvArmed 1 0) (y_log s2) /\ y_first s2 = 0%nat /\ y_free s2 = 0%nat.
Proof.
  assert (H : option_map (fun s => (y_log s, match step 4 s (LRemove 100 1 0) with
              Ok s' => match step 4 s' (LAddLink 1) with
                       | Ok s2 => Some (y_log s2, y_first s2, y_free s2) | _ => None end
             | _ => None end)) (start 4 1000 0 race_run) =
     let l := [EvCall 1 20 2 100 50000 2000; EvFired 0 10 1 2000; EvArmed 0 0;
               EvCall 0 10 1 100 1000 0] in
     Some (l, Some (EvArmed 1 0 :: EvRemoved 1 :: l, 0%nat, 0%nat)))
    by (vm_compute; reflexivity).
  cbv zeta in H. apply some_map in H. destruct H as (s & E & H). cbv beta in H.
  apply pair_eq in H. destruct H as (L & H).
  destruct (step 4 s (LRemove 100 1 0)) as [s1| |] eqn:S1; [|discriminate H|discriminate H].
  destruct (step 4 s1 (LAddLink 1)) as [s2| |] eqn:S2; [|discriminate H|discriminate H].
  injection H as L2 F1 F2.
  exists s, s1, s2. split; [exact (start_reach _ _ _ _ _ E)|]. rewrite L.
  split; [do 3 eexists; simpl; eauto|]. split; [simpl; tauto|]. split; [auto|].
  split; [auto|]. rewrite L2. split; [left; reflexivity|auto].
Qed.

Print Assumptions C01_timer_never_early.
Print Assumptions C02_tick_leaves_no_due_timer.
Print Assumptions C02_callbacks_in_due_order.
Print Assumptions C02_tick_iteration_fires.
Print Assumptions C03_slots_partitioned.
Print Assumptions C03_add_fails_iff_no_free_slot.
Print Assumptions C03_no_assertion_no_runaway.
Print Assumptions C04_cancelled_timer_never_fires.
Print Assumptions C05_sanitised_delay.
Print Assumptions C06_tick_is_bounded.
Print Assumptions C07_remove_affects_only_own_timer.
Print Assumptions C07_remove_cancels_armed_timer.
Print Assumptions C07_stale_handle_refuted.
Print Assumptions C07_stale_handle_race_refuted.
