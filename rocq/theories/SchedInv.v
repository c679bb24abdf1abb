(** The invariant of the timer table and its preservation by every step. *)
From Coq Require Import List ZArith Arith Bool Lia Sorted Permutation.
From Verif Require Import Base SchedModel SchedLists SchedSpec SchedProofs.
Import ListNotations.
Local Open Scope Z_scope.
Set Bullet Behavior "Strict Subproofs".

Definition slot_of (f : inflight) : list nat :=
  match i_stage f with Called => [] | _ => [i_ix f] end.
Definition fly_slots (l : list inflight) : list nat := flat_map slot_of l.

Definition call_info (cyc : Z) (log : list event) (clk : Z) (g : nat)
  (cb arg name due : Z) : Prop :=
  exists delay t sd, In (EvCall g cb arg name delay t) log /\
    0 <= delay < 4294967296 /\
    sanitize_delay delay cyc true = Ok sd /\ due = t + sd /\ t <= clk.

Definition busy_ok (s : sys) (i : nat) : Prop :=
  let e := y_mem s i in
  e_inuse e = true /\ e_when e = u32 (e_due e) /\
  call_info (y_cycle s) (y_log s) (y_clk s) (e_gen e) (e_cb e) (e_arg e) (e_name e) (e_due e) /\
  In (EvArmed (e_gen e) i) (y_log s) /\ ~ over (y_log s) (e_gen e).

Definition fly_ok (s : sys) (f : inflight) : Prop :=
  i_when f = u32 (i_due f) /\
  call_info (y_cycle s) (y_log s) (y_clk s) (i_gen f) (i_cb f) (i_arg f) (i_name f) (i_due f) /\
  ~ over (y_log s) (i_gen f) /\
  (forall ix, ~ In (EvArmed (i_gen f) ix) (y_log s)) /\
  match i_stage f with
  | Called => True
  | Taken => e_inuse (y_mem s (i_ix f)) = false
  | Filled =>
      let e := y_mem s (i_ix f) in
      e_inuse e = true /\ e_when e = i_when f /\ e_gen e = i_gen f /\
      e_due e = i_due f /\ e_cb e = i_cb f /\ e_arg e = i_arg f /\ e_name e = i_name f
  end.

Definition ev_gen (e : event) : nat :=
  match e with
  | EvCall g _ _ _ _ _ => g | EvFail g => g | EvArmed g _ => g
  | EvRemoved g => g | EvFired g _ _ _ => g
  end.

Fixpoint log_ok (cyc : Z) (log : list event) : Prop :=
  match log with
  | [] => True
  | ev :: l => log_ok cyc l /\
    match ev with
    | EvFired g cb arg t =>
        armed l g /\
        (exists name delay tc sd, In (EvCall g cb arg name delay tc) l /\
           sanitize_delay delay cyc true = Ok sd /\ tc + sd <= t) /\
        (forall g' d d', armed l g' -> due_at cyc l g d -> due_at cyc l g' d' -> d <= d')
    | EvRemoved g => armed l g
    | EvFail g => ~ over l g /\ (forall ix, ~ In (EvArmed g ix) l)
    | EvArmed g _ => ~ over l g /\ (forall ix, ~ In (EvArmed g ix) l)
    | EvCall g _ _ _ delay _ => 0 <= delay < 4294967296 /\ forall e, In e l -> ev_gen e <> g
    end
  end.

Record Inv (cap : nat) (s : sys) (busy freel : list nat) : Prop := mkInv {
  inv_cyc : 0 < y_cycle s <= 2000000000;
  inv_busy : dl cap (y_mem s) (y_first s) busy;
  inv_free : dl cap (y_mem s) (y_free s) freel;
  inv_nodup : NoDup (busy ++ freel ++ fly_slots (y_fly s));
  inv_len : length (busy ++ freel ++ fly_slots (y_fly s)) = cap;
  inv_fly_lt : forall i, In i (fly_slots (y_fly s)) -> (i < cap)%nat;
  inv_busy_ok : forall i, In i busy -> busy_ok s i;
  inv_free_ok : forall i, In i freel -> e_inuse (y_mem s i) = false;
  inv_fly_ok : forall f, In f (y_fly s) -> fly_ok s f;
  inv_sorted : StronglySorted (fun i j => e_due (y_mem s i) <= e_due (y_mem s j)) busy;
  inv_gens : NoDup (map (fun i => e_gen (y_mem s i)) busy ++ map i_gen (y_fly s));
  inv_tids : NoDup (map i_tid (y_fly s));
  inv_next : forall e, In e (y_log s) -> (ev_gen e < y_next_gen s)%nat;
  inv_fly_next : forall f, In f (y_fly s) -> (i_gen f < y_next_gen s)%nat;
  inv_uniq : forall g cb arg name delay t cb' arg' name' delay' t',
      In (EvCall g cb arg name delay t) (y_log s) ->
      In (EvCall g cb' arg' name' delay' t') (y_log s) ->
      cb = cb' /\ arg = arg' /\ name = name' /\ delay = delay' /\ t = t';
  inv_armed_called : forall g ix, In (EvArmed g ix) (y_log s) ->
      exists cb arg name delay t, In (EvCall g cb arg name delay t) (y_log s);
  inv_out : forall g cb arg name delay t,
      In (EvCall g cb arg name delay t) (y_log s) -> ~ over (y_log s) g ->
      (exists i, In i busy /\ e_gen (y_mem s i) = g) \/
      (exists f, In f (y_fly s) /\ i_gen f = g);
  inv_log : log_ok (y_cycle s) (y_log s);
  inv_tick : forall t0, y_tick s = Some t0 -> t0 <= y_clk s
}.

(** ** Facts about the log *)

Lemma over_cons : forall ev l g,
  over (ev :: l) g <->
  over l g \/ ev = EvFail g \/ ev = EvRemoved g \/ (exists cb arg t, ev = EvFired g cb arg t).
Proof.
  intros. unfold over, failed, cancelled, fired. simpl. split.
  - intros [[H|H]|[[H|H]|(cb & arg & t & [H|H])]]; subst; eauto 10.
  - intros [[H|[H|(cb & arg & t & H)]]|[H|[H|(cb & arg & t & H)]]]; subst; eauto 10.
Qed.

Lemma over_dec : forall l g, over l g \/ ~ over l g.
Proof.
  induction l; intros g.
  - right. intros [[]|[[]|(cb & arg & t & [])]].
  - destruct (IHl g) as [H|H].
    + left. apply over_cons; auto.
    + assert (D : (a = EvFail g \/ a = EvRemoved g \/ exists cb arg t, a = EvFired g cb arg t) \/
                  ~ (a = EvFail g \/ a = EvRemoved g \/ exists cb arg t, a = EvFired g cb arg t)).
      { destruct a as [? ? ? ? ? ?|g'|g' ?|g'|g' ? ? ?];
          try (destruct (Nat.eq_dec g' g) as [->|N]; [left; solve [eauto 10]|]);
          right; intros [?|[?|(?&?&?&?)]]; congruence. }
      destruct D as [D|D].
      * left. apply over_cons. auto.
      * right. rewrite over_cons. tauto.
Qed.

Lemma log_ok_armed_uniq : forall cyc l g i j, log_ok cyc l ->
  In (EvArmed g i) l -> In (EvArmed g j) l -> i = j.
Proof.
  induction l; intros g i j L Hi Hj; simpl in *; [tauto|]. destruct L as (L & H).
  destruct Hi as [Hi|Hi]; destruct Hj as [Hj|Hj]; subst; eauto.
  - congruence.
  - destruct H as (_ & H). exfalso. apply (H j); auto.
  - destruct H as (_ & H). exfalso. apply (H i); auto.
Qed.

Lemma log_ok_delay : forall cyc l g cb arg name delay t, log_ok cyc l ->
  In (EvCall g cb arg name delay t) l -> 0 <= delay < 4294967296.
Proof.
  induction l; intros g cb arg name delay t L H; simpl in *; [tauto|].
  destruct L as (L & L'). destruct H as [->|H]; [tauto|eauto].
Qed.

Lemma due_at_cons : forall cyc ev l g d, due_at cyc l g d -> due_at cyc (ev :: l) g d.
Proof.
  intros cyc ev l g d (cb & arg & name & delay & t & sd & H & H1 & H2).
  exists cb, arg, name, delay, t, sd. split; [right; exact H|auto].
Qed.

Lemma call_info_weaken : forall cyc log clk g cb arg name due ev clk',
  call_info cyc log clk g cb arg name due -> clk <= clk' ->
  call_info cyc (ev :: log) clk' g cb arg name due.
Proof.
  intros cyc log clk g cb arg name due ev clk' (delay & t & sd & H & H1 & H2 & H3 & H4) L.
  exists delay, t, sd. repeat split; auto; try lia. right; auto.
Qed.

Lemma call_info_due : forall cyc log clk g cb arg name due,
  call_info cyc log clk g cb arg name due -> due_at cyc log g due.
Proof.
  intros cyc log clk g cb arg name due (delay & t & sd & H & H1 & H2 & H3 & H4).
  exists cb, arg, name, delay, t, sd. repeat split; auto.
Qed.

Lemma call_info_bound : forall cyc log clk g cb arg name due,
  0 < cyc <= 2000000000 ->
  call_info cyc log clk g cb arg name due -> due <= clk + max_delay + cyc.
Proof.
  intros cyc log clk g cb arg name due Hc (delay & t & sd & H & H1 & H2 & H3 & H4).
  destruct (sanitize_range delay cyc H1 Hc) as (d & E & B). rewrite E in H2.
  inversion H2; subst. lia.
Qed.

Lemma inv_due_unique : forall cap s busy freel g d d',
  Inv cap s busy freel -> due_at (y_cycle s) (y_log s) g d ->
  due_at (y_cycle s) (y_log s) g d' -> d = d'.
Proof.
  intros cap s busy freel g d d' I (cb & arg & name & delay & t & sd & H & H1 & H2)
    (cb' & arg' & name' & delay' & t' & sd' & H' & H1' & H2').
  destruct (inv_uniq _ _ _ _ I _ _ _ _ _ _ _ _ _ _ _ H H') as (-> & -> & -> & -> & ->).
  rewrite H1 in H1'. inversion H1'; subst. auto.
Qed.

(** Armed timers of the history are exactly the busy list. *)
Lemma inv_armed_busy : forall cap s busy freel g,
  Inv cap s busy freel ->
  (armed (y_log s) g <-> exists i, In i busy /\ e_gen (y_mem s i) = g).
Proof.
  intros cap s busy freel g I. split.
  - intros ((ix & A) & NO).
    destruct (inv_armed_called _ _ _ _ I _ _ A) as (cb & arg & name & delay & t & C).
    destruct (inv_out _ _ _ _ I _ _ _ _ _ _ C NO) as [H|(f & Hf & E)]; auto.
    exfalso. destruct (inv_fly_ok _ _ _ _ I f Hf) as (_ & _ & _ & NA & _).
    apply (NA ix). rewrite E. auto.
  - intros (i & Hi & E). destruct (inv_busy_ok _ _ _ _ I i Hi) as (_ & _ & _ & A & NO).
    rewrite E in *. split; eauto.
Qed.

Lemma busy_window : forall cap s busy freel i,
  Inv cap s busy freel -> timely s -> In i busy ->
  e_due (y_mem s i) <= y_clk s + max_delay + y_cycle s /\
  y_clk s <= e_due (y_mem s i) + max_lag (y_cycle s).
Proof.
  intros cap s busy freel i I T Hi.
  destruct (inv_busy_ok _ _ _ _ I i Hi) as (_ & _ & C & _ & NO). split.
  - eapply call_info_bound; eauto. apply (inv_cyc _ _ _ _ I).
  - apply (proj1 T) with (g := e_gen (y_mem s i)); auto.
    eapply call_info_due; eauto.
Qed.

Lemma fly_window : forall cap s busy freel f,
  Inv cap s busy freel -> timely s -> In f (y_fly s) ->
  i_due f <= y_clk s + max_delay + y_cycle s /\
  y_clk s <= i_due f + max_lag (y_cycle s).
Proof.
  intros cap s busy freel f I T Hi.
  destruct (inv_fly_ok _ _ _ _ I f Hi) as (_ & C & NO & _). split.
  - eapply call_info_bound; eauto. apply (inv_cyc _ _ _ _ I).
  - apply (proj1 T) with (g := i_gen f); auto.
    eapply call_info_due; eauto.
Qed.

(** ** Initial state *)

Lemma init_inv : forall cap cyc clk s,
  0 < cyc <= 2000000000 -> init cap cyc clk = Ok s ->
  Inv cap s [] (seq 0 cap).
Proof.
  intros cap cyc clk s Hc E. unfold init in E.
  destruct (Z.leb_spec cyc 0); [lia|].
  destruct (init_loop_spec cap cap (fun _ => zero_entry) ltac:(lia) [] cap)
    as (m' & E' & D' & S').
  - exists cap. simpl. auto.
  - constructor.
  - intros i [].
  - rewrite E' in E. rewrite app_nil_r in *. simpl in E. inversion E; subst; clear E.
    constructor; simpl; auto; try (intros; exfalso; tauto); try (now constructor).
    + exists cap. simpl. auto.
    + rewrite app_nil_r. apply seq_NoDup.
    + rewrite app_nil_r. apply seq_length.
    + intros i _. destruct (S' i) as (_ & H1 & _). rewrite H1. reflexivity.
    + discriminate.
Qed.

(** ** Frame lemmas *)

Lemma busy_ok_frame : forall s s' i,
  busy_ok s i ->
  e_inuse (y_mem s' i) = e_inuse (y_mem s i) /\ e_when (y_mem s' i) = e_when (y_mem s i) /\
  e_due (y_mem s' i) = e_due (y_mem s i) /\ e_gen (y_mem s' i) = e_gen (y_mem s i) /\
  e_cb (y_mem s' i) = e_cb (y_mem s i) /\ e_arg (y_mem s' i) = e_arg (y_mem s i) /\
  e_name (y_mem s' i) = e_name (y_mem s i) ->
  y_cycle s' = y_cycle s -> y_clk s <= y_clk s' ->
  (y_log s' = y_log s \/ exists ev, y_log s' = ev :: y_log s /\
     (ev_gen ev = e_gen (y_mem s i) -> exists ix, ev = EvArmed (ev_gen ev) ix)) ->
  busy_ok s' i.
Proof.
  intros s s' i (B1 & B2 & B3 & B4 & B5) (E1 & E2 & E3 & E4 & E5 & E6 & E7) EC LC EL.
  unfold busy_ok. rewrite E1, E2, E3, E4, E5, E6, E7, EC.
  destruct EL as [EL|(ev & EL & EG)]; rewrite EL.
  - repeat split; auto. destruct B3 as (delay & t & sd & H & H1 & H2 & H3 & H4).
    exists delay, t, sd. repeat split; auto; lia.
  - repeat split; auto.
    + eapply call_info_weaken; eauto.
    + right; auto.
    + rewrite over_cons. intros [H|H]; auto.
      assert (G : ev_gen ev = e_gen (y_mem s i)).
      { destruct H as [->|[->|(?&?&?&->)]]; reflexivity. }
      destruct (EG G) as (ix & EE). destruct H as [?|[?|(?&?&?&?)]]; congruence.
Qed.

Lemma fly_ok_frame : forall s s' f,
  fly_ok s f ->
  (In (i_ix f) (slot_of f) ->
   let e := y_mem s (i_ix f) in let e' := y_mem s' (i_ix f) in
   e_inuse e' = e_inuse e /\ e_when e' = e_when e /\ e_due e' = e_due e /\
   e_gen e' = e_gen e /\ e_cb e' = e_cb e /\ e_arg e' = e_arg e /\ e_name e' = e_name e) ->
  y_cycle s' = y_cycle s -> y_clk s <= y_clk s' ->
  (y_log s' = y_log s \/ exists ev, y_log s' = ev :: y_log s /\ ev_gen ev <> i_gen f) ->
  fly_ok s' f.
Proof.
  intros s s' f (B1 & B2 & B3 & B4 & B5) ES EC LC EL.
  unfold fly_ok. rewrite EC. split; [auto|]. split; [|split; [|split]].
  - destruct EL as [EL|(ev & EL & EG)]; rewrite EL.
    + destruct B2 as (delay & t & sd & H & H1 & H2 & H3 & H4).
      exists delay, t, sd. repeat split; auto; lia.
    + eapply call_info_weaken; eauto.
  - destruct EL as [EL|(ev & EL & EG)]; rewrite EL; auto.
    rewrite over_cons. intros [H|H]; auto. apply EG.
    destruct H as [->|[->|(?&?&?&->)]]; reflexivity.
  - destruct EL as [EL|(ev & EL & EG)]; rewrite EL; auto.
    intros ix [H|H]; [|apply (B4 ix); auto]. apply EG. rewrite H. reflexivity.
  - unfold slot_of in ES. destruct (i_stage f); auto.
    + destruct (ES (or_introl eq_refl)) as (E1 & _). rewrite E1; auto.
    + destruct (ES (or_introl eq_refl)) as (E1 & E2 & E3 & E4 & E5 & E6 & E7).
      simpl in *. rewrite E1, E2, E3, E4, E5, E6, E7. auto.
Qed.

Lemma StronglySorted_ext : forall A (R R' : A -> A -> Prop) l,
  (forall x y, In x l -> In y l -> R x y -> R' x y) ->
  StronglySorted R l -> StronglySorted R' l.
Proof.
  induction l; intros F H; [constructor|]. inversion H; subst.
  constructor.
  - apply IHl; auto. intros; apply F; simpl; auto.
  - rewrite Forall_forall in *. intros x Hx. apply F; simpl; auto.
Qed.

Lemma StronglySorted_remove : forall A (R : A -> A -> Prop) l1 x l2,
  StronglySorted R (l1 ++ x :: l2) -> StronglySorted R (l1 ++ l2).
Proof.
  induction l1; intros x l2 H; simpl in *; inversion H; subst; auto.
  constructor; eauto.
  rewrite Forall_forall in *. intros y Hy. apply H3. apply in_app_iff in Hy.
  apply in_app_iff. destruct Hy; auto. right; right; auto.
Qed.

Lemma StronglySorted_insert : forall A (R : A -> A -> Prop) l1 x l2,
  StronglySorted R (l1 ++ l2) ->
  (forall y, In y l1 -> R y x) -> (forall y, In y l2 -> R x y) ->
  StronglySorted R (l1 ++ x :: l2).
Proof.
  induction l1; intros x l2 H A1 A2; simpl in *.
  - constructor; auto. rewrite Forall_forall; auto.
  - inversion H; subst. constructor; auto.
    rewrite Forall_forall in *. intros y Hy. apply in_app_iff in Hy.
    destruct Hy as [Hy|[<-|Hy]].
    + apply H3. apply in_app_iff; auto.
    + apply A1; auto.
    + apply H3. apply in_app_iff; auto.
Qed.

Lemma StronglySorted_hd : forall A (R : A -> A -> Prop) x l y,
  (forall z, R z z) -> StronglySorted R (x :: l) -> In y (x :: l) -> R x y.
Proof.
  intros A R x l y RR H [->|Hy]; auto. inversion H; subst.
  rewrite Forall_forall in H3. auto.
Qed.

Lemma NoDup_app_remove_l : forall A (l l' : list A), NoDup (l ++ l') -> NoDup l'.
Proof. induction l; intros l' H; auto. inversion H; subst; auto. Qed.

Lemma NoDup_app_remove_r : forall A (l l' : list A), NoDup (l ++ l') -> NoDup l.
Proof.
  induction l; intros l' H; [constructor|]. inversion H; subst. constructor; eauto.
  intro Hi. apply H2. apply in_app_iff; auto.
Qed.

Lemma NoDup_app_disj : forall A (l l' : list A) x,
  NoDup (l ++ l') -> In x l -> In x l' -> False.
Proof.
  induction l; intros l' x H H1 H2; simpl in *; auto. inversion H; subst.
  destruct H1 as [->|H1]; eauto. apply H4. apply in_app_iff; auto.
Qed.

(** ** Releasing a busy slot (shared by cancel and fire) *)

Lemma release_inv : forall cap s l1 ix l2 freel ev,
  Inv cap s (l1 ++ ix :: l2) freel ->
  (ev = EvRemoved (e_gen (y_mem s ix)) \/
   (exists cb arg t, ev = EvFired (e_gen (y_mem s ix)) cb arg t)) ->
  log_ok (y_cycle s) (ev :: y_log s) ->
  exists m1 m2 first',
    unlink cap (y_mem s) (y_first s) ix = Ok (m1, first') /\
    same_data (y_mem s) m1 /\
    link_before cap (upd m1 ix (set_inuse (m1 ix) false)) (y_free s) ix (y_free s)
      = Ok (m2, ix) /\
    (forall i, e_due (m2 i) = e_due (y_mem s i)) /\
    Inv cap (mkSys m2 first' ix (y_cycle s) (y_clk s) (y_tick s) (y_fly s)
               (y_next_gen s) (ev :: y_log s)) (l1 ++ l2) (ix :: freel).
Proof.
  intros cap s l1 ix l2 freel ev I Hev Hlog.
  pose proof (inv_nodup _ _ _ _ I) as ND.
  assert (NDb : NoDup (l1 ++ ix :: l2)) by (apply NoDup_app_remove_r in ND; auto).
  assert (NDr : NoDup (freel ++ fly_slots (y_fly s)))
    by (apply NoDup_app_remove_l in ND; auto).
  assert (NDf : NoDup freel) by (apply NoDup_app_remove_r in NDr; auto).
  assert (Perm : Permutation ((l1 ++ ix :: l2) ++ freel ++ fly_slots (y_fly s))
                   ((l1 ++ l2) ++ (ix :: freel) ++ fly_slots (y_fly s))).
  { rewrite <- !app_assoc. simpl.
    apply Permutation_app_head. apply Permutation_middle. }
  assert (ND' : NoDup ((l1 ++ l2) ++ (ix :: freel) ++ fly_slots (y_fly s)))
    by (eapply Permutation_NoDup; eauto).
  assert (Hixb : In ix (l1 ++ ix :: l2)) by (apply in_app_iff; right; left; auto).
  assert (Hix : (ix < cap)%nat) by (eapply dl_lt; [apply (inv_busy _ _ _ _ I)|auto]).
  assert (Nix : ~ In ix (l1 ++ l2)) by (apply NoDup_remove_2 in NDb; auto).
  assert (Disj : forall i, In i (l1 ++ l2) -> In i ((ix :: freel) ++ fly_slots (y_fly s)) -> False).
  { intros i H1 H2. eapply NoDup_app_disj; [exact ND'|exact H1|exact H2]. }
  assert (Nixf : ~ In ix freel /\ ~ In ix (fly_slots (y_fly s))).
  { apply NoDup_app_remove_l in ND'. simpl in ND'. inversion ND'; subst.
    split; intro; apply H1; apply in_app_iff; auto. }
  destruct (unlink_spec cap _ _ _ _ _ (inv_busy _ _ _ _ I) NDb) as (m1 & E1 & D1 & S1 & O1).
  set (m1' := upd m1 ix (set_inuse (m1 ix) false)).
  assert (Dfree : dl cap m1' (y_free s) freel).
  { eapply dl_frame; [|apply (inv_free _ _ _ _ I)]. intros i Hi. unfold m1'.
    rewrite upd_other by (intros ->; tauto). apply O1. intro Hb.
    apply (Disj i Hb). apply in_app_iff. left; right; auto. }
  destruct (link_head_spec cap m1' _ _ ix Dfree NDf Hix (proj1 Nixf)) as (m2 & E2 & D2 & S2 & O2).
  exists m1, m2, (hd cap (l1 ++ l2)). split; [exact E1|]. split; [exact S1|].
  split; [exact E2|]. split.
  { intros i. destruct (S2 i) as (_ & _ & _ & _ & _ & _ & A).
    destruct (S1 i) as (_ & _ & _ & _ & _ & _ & B). rewrite A. unfold m1'.
    unfold upd. destruct (Nat.eqb_spec i ix); subst; simpl; auto. }
  (* contents of the new table *)
  assert (Data : forall i, i <> ix ->
     e_inuse (m2 i) = e_inuse (y_mem s i) /\ e_when (m2 i) = e_when (y_mem s i) /\
     e_due (m2 i) = e_due (y_mem s i) /\ e_gen (m2 i) = e_gen (y_mem s i) /\
     e_cb (m2 i) = e_cb (y_mem s i) /\ e_arg (m2 i) = e_arg (y_mem s i) /\
     e_name (m2 i) = e_name (y_mem s i)).
  { intros i Hi. destruct (S2 i) as (A1 & A2 & A3 & A4 & A5 & A6 & A7).
    destruct (S1 i) as (B1 & B2 & B3 & B4 & B5 & B6 & B7).
    unfold m1' in *. rewrite upd_other in * by auto. repeat split; congruence. }
  assert (Dix : e_inuse (m2 ix) = false).
  { destruct (S2 ix) as (_ & A2 & _). rewrite A2. unfold m1'. rewrite upd_same. reflexivity. }
  assert (Gev : ev_gen ev = e_gen (y_mem s ix)).
  { destruct Hev as [->|(?&?&?&->)]; reflexivity. }
  assert (GU : forall i, In i (l1 ++ l2) -> e_gen (y_mem s i) <> e_gen (y_mem s ix)).
  { intros i Hi E. pose proof (inv_gens _ _ _ _ I) as G. apply NoDup_app_remove_r in G.
    rewrite map_app in G. simpl in G. apply NoDup_remove_2 in G. apply G.
    rewrite <- map_app. rewrite <- E. apply (in_map (fun i => e_gen (y_mem s i))). auto. }
  assert (GF : forall f, In f (y_fly s) -> e_gen (y_mem s ix) <> i_gen f).
  { intros f Hf E. pose proof (inv_gens _ _ _ _ I) as G.
    rewrite map_app in G. simpl in G. rewrite <- app_assoc in G. simpl in G.
    apply NoDup_remove_2 in G. apply G. apply in_app_iff. right. apply in_app_iff. right.
    rewrite E. apply in_map; auto. }
  assert (Sub : forall i, In i (l1 ++ l2) -> In i (l1 ++ ix :: l2)).
  { intros i Hi. apply in_app_iff in Hi. apply in_app_iff. simpl. tauto. }
  constructor; simpl.
  - apply (inv_cyc _ _ _ _ I).
  - eapply dl_frame; [|exact D1]. intros i Hi.
    assert (i <> ix) by (intros ->; auto).
    rewrite O2.
    + unfold m1'. rewrite upd_other; auto.
    + intros [?|Hf]; [congruence|]. apply (Disj i Hi). apply in_app_iff. left; right; auto.
  - exact D2.
  - exact ND'.
  - rewrite <- (inv_len _ _ _ _ I). symmetry. apply Permutation_length. exact Perm.
  - apply (inv_fly_lt _ _ _ _ I).
  - intros i Hi. eapply busy_ok_frame with (s := s); simpl; auto; try lia.
    + apply (inv_busy_ok _ _ _ _ I); auto.
    + apply Data. intros ->; auto.
    + right. exists ev. split; auto. intros E. exfalso. rewrite Gev in E.
      symmetry in E. apply GU in E; auto.
  - intros i [<-|Hi]; auto.
    destruct (Data i) as (E & _). { intros ->; tauto. }
    rewrite E. apply (inv_free_ok _ _ _ _ I); auto.
  - intros f Hf. eapply fly_ok_frame with (s := s); simpl; auto; try lia.
    + apply (inv_fly_ok _ _ _ _ I); auto.
    + intros Hs. apply Data. intros E. apply (proj2 Nixf). rewrite <- E.
      unfold fly_slots. apply in_flat_map. exists f. split; auto.
    + right. exists ev. split; auto. rewrite Gev. apply GF; auto.
  - eapply StronglySorted_ext;
      [|eapply StronglySorted_remove; apply (inv_sorted _ _ _ _ I)].
    intros x y Hx Hy R. simpl in *.
    destruct (Data x) as (_ & _ & Ex & _). { intros ->; auto. }
    destruct (Data y) as (_ & _ & Ey & _). { intros ->; auto. }
    rewrite Ex, Ey. exact R.
  - pose proof (inv_gens _ _ _ _ I) as G.
    assert (EM : map (fun i => e_gen (m2 i)) (l1 ++ l2) = map (fun i => e_gen (y_mem s i)) (l1 ++ l2)).
    { apply map_ext_in. intros i Hi. apply Data. intros ->; auto. }
    rewrite EM. rewrite map_app in G. simpl in G. rewrite <- app_assoc in G. simpl in G.
    apply NoDup_remove_1 in G. rewrite map_app, <- app_assoc. exact G.
  - apply (inv_tids _ _ _ _ I).
  - intros e [<-|He]; [|apply (inv_next _ _ _ _ I); auto].
    rewrite Gev. destruct (inv_busy_ok _ _ _ _ I ix Hixb) as (_ & _ & _ & A & _).
    apply (inv_next _ _ _ _ I) in A. auto.
  - apply (inv_fly_next _ _ _ _ I).
  - intros g cb arg name delay t cb' arg' name' delay' t' [H|H] [H'|H'];
      try (subst ev; destruct Hev as [Hev|(?&?&?&Hev)]; discriminate).
    eapply (inv_uniq _ _ _ _ I); eauto.
  - intros g i [H|H].
    + subst ev; destruct Hev as [Hev|(?&?&?&Hev)]; discriminate.
    + destruct (inv_armed_called _ _ _ _ I _ _ H) as (cb & arg & name & delay & t & C).
      exists cb, arg, name, delay, t. right; auto.
  - intros g cb arg name delay t [H|H] NO.
    + subst ev; destruct Hev as [Hev|(?&?&?&Hev)]; discriminate.
    + rewrite over_cons in NO.
      destruct (inv_out _ _ _ _ I _ _ _ _ _ _ H) as [(i & Hi & E)|F].
      * intro; apply NO; auto.
      * left. assert (i <> ix).
        { intros ->. apply NO. right. rewrite E in Hev.
          destruct Hev as [Hev|(c&a&t'&Hev)]; [auto|]. right; right. eauto. }
        exists i. split.
        -- apply in_app_iff in Hi. apply in_app_iff. simpl in Hi. intuition congruence.
        -- destruct (Data i) as (_ & _ & _ & Eg & _); auto. congruence.
      * right. exact F.
  - exact Hlog.
  - apply (inv_tick _ _ _ _ I).
Qed.

(** ** Threads inside pf_scheduler_add *)

Lemma drop_fly_notin : forall tid l, ~ In tid (map i_tid l) -> drop_fly tid l = l.
Proof.
  induction l; intros H; simpl in *; auto.
  destruct (Nat.eqb_spec (i_tid a) tid); simpl; [tauto|]. rewrite IHl; tauto.
Qed.

Lemma find_fly_perm : forall tid l f,
  NoDup (map i_tid l) -> find_fly tid l = Some f ->
  i_tid f = tid /\ Permutation l (f :: drop_fly tid l) /\ In f l.
Proof.
  induction l; intros f ND H; simpl in *; [discriminate|].
  inversion ND; subst.
  destruct (Nat.eqb_spec (i_tid a) tid); simpl in *.
  - inversion H; subst. split; auto. split; auto.
    rewrite drop_fly_notin; auto.
  - destruct (IHl f H3 H) as (E & P & I). split; auto. split; auto.
    rewrite P at 1. apply perm_swap.
Qed.

Lemma find_fly_none : forall tid l, find_fly tid l = None -> ~ In tid (map i_tid l).
Proof.
  intros tid l H Hi. apply in_map_iff in Hi. destruct Hi as (f & E & Hf).
  apply (find_none _ _ H) in Hf. apply Nat.eqb_neq in Hf. auto.
Qed.

Lemma fly_slots_perm : forall l l', Permutation l l' ->
  Permutation (fly_slots l) (fly_slots l').
Proof. intros. apply Permutation_flat_map. auto. Qed.

Lemma sanitize_exists : forall delay cyc, 0 <= delay < 4294967296 -> 0 < cyc <= 2000000000 ->
  exists sd, sanitize_delay delay cyc true = Ok sd /\ 1 <= sd <= max_delay + cyc.
Proof. exact sanitize_range. Qed.

Lemma time_inv : forall cap s busy freel d,
  Inv cap s busy freel ->
  Inv cap (mkSys (y_mem s) (y_first s) (y_free s) (y_cycle s)
             (y_clk s + Z.max 0 d) (y_tick s) (y_fly s) (y_next_gen s) (y_log s)) busy freel.
Proof.
  intros cap s busy freel d I. destruct I. constructor; simpl; auto.
  - intros i Hi. eapply busy_ok_frame with (s := s); simpl; auto; try lia. repeat split.
  - intros f Hf. eapply fly_ok_frame with (s := s); simpl; auto; try lia. repeat split.
  - intros t0 H. apply inv_tick0 in H. lia.
Qed.

Lemma set_tick_inv : forall cap s busy freel t,
  Inv cap s busy freel -> (forall t0, t = Some t0 -> t0 <= y_clk s) ->
  Inv cap (set_tick s t) busy freel.
Proof.
  intros cap s busy freel t I H. destruct I. constructor; simpl; auto.
Qed.

Lemma add_call_inv : forall cap s busy freel tid delay cb arg name,
  Inv cap s busy freel -> 0 <= delay < 4294967296 ->
  exists s', add_call s tid delay cb arg name = Ok s' /\ Inv cap s' busy freel.
Proof.
  intros cap s busy freel tid delay cb arg name I Hd. unfold add_call.
  destruct (find_fly tid (y_fly s)) eqn:F; [eauto|].
  destruct (sanitize_exists delay (y_cycle s) Hd (inv_cyc _ _ _ _ I)) as (sd & E & B).
  rewrite E. simpl obind. eexists. split; [reflexivity|].
  apply find_fly_none in F.
  assert (FR : forall e, In e (y_log s) -> ev_gen e <> y_next_gen s).
  { intros e He. apply (inv_next _ _ _ _ I) in He. lia. }
  assert (NOV : forall g, over (y_log s) g -> g <> y_next_gen s).
  { intros g [H|[H|(c & a & t & H)]]; apply FR in H; simpl in H; auto. }
  constructor; simpl.
  - apply (inv_cyc _ _ _ _ I).
  - apply (inv_busy _ _ _ _ I).
  - apply (inv_free _ _ _ _ I).
  - apply (inv_nodup _ _ _ _ I).
  - apply (inv_len _ _ _ _ I).
  - apply (inv_fly_lt _ _ _ _ I).
  - intros i Hi. pose proof (inv_busy_ok _ _ _ _ I i Hi) as BO.
    eapply busy_ok_frame with (s := s); simpl; auto; try lia.
    + repeat split.
    + right. eexists. split; [reflexivity|]. simpl. intros EG. exfalso.
      destruct BO as (_ & _ & _ & A & _). apply FR in A. simpl in A. auto.
  - apply (inv_free_ok _ _ _ _ I).
  - intros f [<-|Hf].
    + unfold fly_ok. simpl. split; [|split; [|split; [|split]]]; auto.
      * unfold u32. rewrite Zplus_mod_idemp_l. reflexivity.
      * exists delay, (y_clk s), sd. split; [left; reflexivity|]. repeat split; auto; lia.
      * rewrite over_cons. intros [H|[H|[H|(?&?&?&H)]]]; try discriminate.
        apply NOV in H. auto.
      * intros ix [H|H]; try discriminate. apply FR in H. auto.
    + eapply fly_ok_frame with (s := s); simpl; auto; try lia.
      * apply (inv_fly_ok _ _ _ _ I); auto.
      * intros _. repeat split.
      * right. eexists. split; [reflexivity|]. simpl.
        apply (inv_fly_next _ _ _ _ I) in Hf. lia.
  - apply (inv_sorted _ _ _ _ I).
  - apply NoDup_Add with (a := y_next_gen s)
      (l := map (fun i => e_gen (y_mem s i)) busy ++ map i_gen (y_fly s)).
    + apply Add_app.
    + split; [apply (inv_gens _ _ _ _ I)|]. rewrite in_app_iff, !in_map_iff.
      intros [(i & Eg & Hi)|(f & Eg & Hf)].
      * destruct (inv_busy_ok _ _ _ _ I i Hi) as (_ & _ & _ & A & _).
        apply FR in A. simpl in A. auto.
      * apply (inv_fly_next _ _ _ _ I) in Hf. lia.
  - constructor; auto. apply (inv_tids _ _ _ _ I).
  - intros e [<-|He]; simpl; [lia|]. apply (inv_next _ _ _ _ I) in He. lia.
  - intros f [<-|Hf]; simpl; [lia|]. apply (inv_fly_next _ _ _ _ I) in Hf. lia.
  - intros g c a n d t c' a' n' d' t' [H|H] [H'|H'].
    + inversion H; inversion H'; subst; auto.
    + inversion H; subst. apply FR in H'. simpl in H'. congruence.
    + inversion H'; subst. apply FR in H. simpl in H. congruence.
    + eapply (inv_uniq _ _ _ _ I); eauto.
  - intros g ix [H|H]; [discriminate|].
    destruct (inv_armed_called _ _ _ _ I _ _ H) as (c & a & n & d & t & C).
    exists c, a, n, d, t. right; auto.
  - intros g c a n d t [H|H] NO.
    + inversion H; subst. right. eexists. split; [left; reflexivity|reflexivity].
    + rewrite over_cons in NO.
      destruct (inv_out _ _ _ _ I _ _ _ _ _ _ H) as [L|(f & Hf & Eg)]; auto.
      right. exists f. auto.
  - split; auto. apply (inv_log _ _ _ _ I).
  - apply (inv_tick _ _ _ _ I).
Qed.

(** Replacing thread [f] by [f'] with the same identity. *)
Lemma map_perm_replace : forall A (g : inflight -> A) l f f' tid,
  Permutation l (f :: drop_fly tid l) -> g f' = g f ->
  Permutation (map g l) (map g (f' :: drop_fly tid l)).
Proof.
  intros A g l f f' tid P E. simpl. rewrite E. apply (Permutation_map g) in P. exact P.
Qed.

Lemma add_take_inv : forall cap s busy freel tid,
  Inv cap s busy freel ->
  exists s' freel', add_take cap s tid = Ok s' /\ Inv cap s' busy freel'.
Proof.
  intros cap s busy freel tid I. unfold add_take.
  destruct (find_fly tid (y_fly s)) as [f|] eqn:F; [|eauto].
  destruct (i_stage f) eqn:St; eauto.
  destruct (find_fly_perm _ _ _ (inv_tids _ _ _ _ I) F) as (Et & P & Hf).
  pose proof (dl_hd _ _ _ _ (inv_free _ _ _ _ I)) as Hq.
  pose proof (inv_nodup _ _ _ _ I) as ND.
  assert (PS : Permutation (fly_slots (y_fly s)) (fly_slots (drop_fly tid (y_fly s)))).
  { rewrite (fly_slots_perm _ _ P). simpl. unfold slot_of. rewrite St. reflexivity. }
  assert (InD : forall x, In x (drop_fly tid (y_fly s)) -> In x (y_fly s) /\ i_tid x <> tid).
  { intros x Hx. apply filter_In in Hx. destruct Hx as (Hx & N). split; auto.
    apply negb_true_iff, Nat.eqb_neq in N. auto. }
  pose proof (inv_fly_ok _ _ _ _ I f Hf) as FO.
  assert (GD : forall x, In x (drop_fly tid (y_fly s)) -> i_gen x <> i_gen f).
  { intros x Hx Eg. pose proof (inv_gens _ _ _ _ I) as G. apply NoDup_app_remove_l in G.
    apply (Permutation_NoDup (Permutation_map i_gen P)) in G. simpl in G.
    inversion G; subst. apply H1. rewrite <- Eg. apply in_map; auto. }
  assert (GB : forall i, In i busy -> e_gen (y_mem s i) <> i_gen f).
  { intros i Hi Eg. eapply NoDup_app_disj; [apply (inv_gens _ _ _ _ I)| |].
    - apply (in_map (fun i => e_gen (y_mem s i))). exact Hi.
    - rewrite Eg. apply in_map. auto. }
  destruct freel as [|ix freel].
  - (* no free slot *)
    simpl in Hq. rewrite Hq.
    assert (EU : unlink cap (y_mem s) cap cap = Ok (y_mem s, cap)).
    { unfold unlink. rewrite Nat.ltb_irrefl. reflexivity. }
    rewrite EU. simpl obind. rewrite Nat.ltb_irrefl. simpl.
    do 2 eexists. split; [reflexivity|]. instantiate (1 := []).
    constructor; simpl.
    + apply (inv_cyc _ _ _ _ I).
    + apply (inv_busy _ _ _ _ I).
    + exists cap. simpl. auto.
    + eapply Permutation_NoDup; [|exact ND]. simpl. apply Permutation_app_head. auto.
    + rewrite <- (inv_len _ _ _ _ I). apply Permutation_length. symmetry.
      simpl. apply Permutation_app_head. auto.
    + intros i Hi. apply (inv_fly_lt _ _ _ _ I). eapply Permutation_in; [symmetry; exact PS|auto].
    + intros i Hi. eapply busy_ok_frame with (s := s); simpl; auto; try lia.
      * apply (inv_busy_ok _ _ _ _ I); auto.
      * repeat split.
      * right. eexists. split; [reflexivity|]. simpl. intros Eg.
        symmetry in Eg. apply GB in Eg; tauto.
    + tauto.
    + intros x Hx. eapply fly_ok_frame with (s := s); simpl; auto; try lia.
      * apply (inv_fly_ok _ _ _ _ I). apply InD; auto.
      * intros _. repeat split.
      * right. eexists. split; [reflexivity|]. simpl. intros Eg. symmetry in Eg.
        apply GD in Eg; auto.
    + apply (inv_sorted _ _ _ _ I).
    + pose proof (inv_gens _ _ _ _ I) as G.
      eapply Permutation_NoDup in G; [|apply Permutation_app_head; apply (Permutation_map i_gen P)].
      simpl in G. apply NoDup_remove_1 in G. exact G.
    + pose proof (inv_tids _ _ _ _ I) as G.
      apply (Permutation_NoDup (Permutation_map i_tid P)) in G. simpl in G. inversion G; auto.
    + intros e [<-|He]; [simpl|apply (inv_next _ _ _ _ I); auto].
      apply (inv_fly_next _ _ _ _ I); auto.
    + intros x Hx. apply (inv_fly_next _ _ _ _ I). apply InD; auto.
    + intros g c a n d t c' a' n' d' t' [H|H] [H'|H']; try discriminate.
      eapply (inv_uniq _ _ _ _ I); eauto.
    + intros g i [H|H]; [discriminate|].
      destruct (inv_armed_called _ _ _ _ I _ _ H) as (c & a & n & d & t & C).
      exists c, a, n, d, t. right; auto.
    + intros g c a n d t [H|H] NO; [discriminate|]. rewrite over_cons in NO.
      destruct (inv_out _ _ _ _ I _ _ _ _ _ _ H) as [L|(x & Hx & Eg)]; auto.
      right. exists x. split; auto. eapply Permutation_in in Hx; [|exact P].
      destruct Hx as [<-|Hx]; auto. exfalso. apply NO. rewrite Eg. auto.
    + split; [apply (inv_log _ _ _ _ I)|]. destruct FO as (_ & _ & A & B & _). auto.
    + apply (inv_tick _ _ _ _ I).
  - (* take the first free slot *)
    simpl in Hq. rewrite Hq. pose proof (inv_free _ _ _ _ I) as DF. rewrite Hq in DF.
    assert (NDf : NoDup (ix :: freel)).
    { apply NoDup_app_remove_l in ND. apply NoDup_app_remove_r in ND. auto. }
    destruct (unlink_head cap _ _ _ DF NDf) as (m' & E & D' & S' & O').
    rewrite E. simpl obind.
    assert (Hix : (ix < cap)%nat) by (eapply dl_lt; [exact DF|left; auto]).
    cbn [fst snd]. rewrite (proj2 (Nat.ltb_lt _ _) Hix). simpl negb. cbv iota.
    do 2 eexists. split; [reflexivity|]. instantiate (1 := freel).
    assert (Perm : Permutation (busy ++ (ix :: freel) ++ fly_slots (y_fly s))
       (busy ++ freel ++ fly_slots (set_stage f Taken ix :: drop_fly tid (y_fly s)))).
    { apply Permutation_app_head. simpl. rewrite PS. apply Permutation_middle. }
    assert (Nb : forall i, In i busy -> In i (ix :: freel) -> False).
    { intros i H1 H2. eapply NoDup_app_disj; [exact ND|exact H1|]. apply in_app_iff; auto. }
    assert (DD : forall i,
       e_inuse (m' i) = e_inuse (y_mem s i) /\ e_when (m' i) = e_when (y_mem s i) /\
       e_due (m' i) = e_due (y_mem s i) /\ e_gen (m' i) = e_gen (y_mem s i) /\
       e_cb (m' i) = e_cb (y_mem s i) /\ e_arg (m' i) = e_arg (y_mem s i) /\
       e_name (m' i) = e_name (y_mem s i)).
    { intros i. destruct (S' i) as (?&?&?&?&?&?&?). repeat split; congruence. }
    constructor; simpl.
    + apply (inv_cyc _ _ _ _ I).
    + eapply dl_frame; [|apply (inv_busy _ _ _ _ I)]. intros i Hi. apply O'.
      intro. apply (Nb i Hi). right; auto.
    + exact D'.
    + eapply Permutation_NoDup; [exact Perm|exact ND].
    + rewrite <- (inv_len _ _ _ _ I). apply Permutation_length. symmetry. exact Perm.
    + intros i [<-|Hi]; auto.
      apply (inv_fly_lt _ _ _ _ I). eapply Permutation_in; [symmetry; exact PS|auto].
    + intros i Hi. eapply busy_ok_frame with (s := s); simpl; auto; try lia.
      apply (inv_busy_ok _ _ _ _ I); auto.
    + intros i Hi. destruct (DD i) as (Ei & _). rewrite Ei.
      apply (inv_free_ok _ _ _ _ I). right; auto.
    + intros x [<-|Hx].
      * destruct FO as (A1 & A2 & A3 & A4 & _). unfold fly_ok. simpl.
        split; [auto|split; [exact A2|split; [auto|split; [auto|]]]].
        destruct (DD ix) as (Ei & _). rewrite Ei. apply (inv_free_ok _ _ _ _ I). left; auto.
      * eapply fly_ok_frame with (s := s); simpl; auto; try lia.
        apply (inv_fly_ok _ _ _ _ I). apply InD; auto.
    + eapply StronglySorted_ext; [|apply (inv_sorted _ _ _ _ I)].
      intros x y Hx Hy R. destruct (DD x) as (_ & _ & Ex & _). destruct (DD y) as (_ & _ & Ey & _).
      rewrite Ex, Ey. auto.
    + pose proof (inv_gens _ _ _ _ I) as G.
      assert (EM : map (fun i => e_gen (m' i)) busy = map (fun i => e_gen (y_mem s i)) busy).
      { apply map_ext. intros i. apply DD. }
      rewrite EM. eapply Permutation_NoDup; [|exact G]. apply Permutation_app_head.
      apply (map_perm_replace _ i_gen _ f (set_stage f Taken ix) tid P eq_refl).
    + pose proof (inv_tids _ _ _ _ I) as G. eapply Permutation_NoDup; [|exact G].
      apply (map_perm_replace _ i_tid _ f (set_stage f Taken ix) tid P eq_refl).
    + apply (inv_next _ _ _ _ I).
    + intros x [<-|Hx]; simpl; apply (inv_fly_next _ _ _ _ I); auto. apply InD; auto.
    + apply (inv_uniq _ _ _ _ I).
    + apply (inv_armed_called _ _ _ _ I).
    + intros g c a n d t H NO.
      destruct (inv_out _ _ _ _ I _ _ _ _ _ _ H NO) as [(i & Hi & Eg)|(x & Hx & Eg)].
      * left. exists i. split; auto. destruct (DD i) as (_ & _ & _ & Ei & _). congruence.
      * right. eapply Permutation_in in Hx; [|exact P].
        destruct Hx as [<-|Hx]; [|exists x; auto].
        eexists. split; [left; reflexivity|exact Eg].
    + apply (inv_log _ _ _ _ I).
    + apply (inv_tick _ _ _ _ I).
Qed.

Lemma add_fill_inv : forall cap s busy freel tid,
  Inv cap s busy freel ->
  exists s', add_fill s tid = Ok s' /\ Inv cap s' busy freel.
Proof.
  intros cap s busy freel tid I. unfold add_fill.
  destruct (find_fly tid (y_fly s)) as [f|] eqn:F; [|eauto].
  destruct (i_stage f) eqn:St; eauto.
  destruct (find_fly_perm _ _ _ (inv_tids _ _ _ _ I) F) as (Et & P & Hf).
  pose proof (inv_nodup _ _ _ _ I) as ND.
  assert (PS : Permutation (fly_slots (y_fly s)) (i_ix f :: fly_slots (drop_fly tid (y_fly s)))).
  { rewrite (fly_slots_perm _ _ P). simpl. unfold slot_of. rewrite St. reflexivity. }
  assert (InD : forall x, In x (drop_fly tid (y_fly s)) -> In x (y_fly s)).
  { intros x Hx. apply filter_In in Hx. tauto. }
  pose proof (inv_fly_ok _ _ _ _ I f Hf) as FO.
  cbv zeta. eexists. split; [reflexivity|].
  set (e' := mkEntry _ _ _ _ _ _ _ _ _).
  assert (Hs : In (i_ix f) (fly_slots (y_fly s))).
  { eapply Permutation_in; [symmetry; exact PS|left; auto]. }
  assert (Nb : ~ In (i_ix f) busy).
  { intro Hi. eapply NoDup_app_disj; [exact ND|exact Hi|]. apply in_app_iff; auto. }
  assert (Nf : ~ In (i_ix f) freel).
  { apply NoDup_app_remove_l in ND. intro Hi. eapply NoDup_app_disj; [exact ND|exact Hi|auto]. }
  assert (Ns : ~ In (i_ix f) (fly_slots (drop_fly tid (y_fly s)))).
  { apply NoDup_app_remove_l, NoDup_app_remove_l in ND.
    apply (Permutation_NoDup PS) in ND. inversion ND; auto. }
  assert (UO : forall i, i <> i_ix f -> upd (y_mem s) (i_ix f) e' i = y_mem s i).
  { intros. apply upd_other; auto. }
  assert (UB : forall i, In i busy -> upd (y_mem s) (i_ix f) e' i = y_mem s i).
  { intros i Hi. apply UO. intros ->; auto. }
  constructor; simpl.
  - apply (inv_cyc _ _ _ _ I).
  - eapply dl_frame; [|apply (inv_busy _ _ _ _ I)]. auto.
  - eapply dl_frame; [|apply (inv_free _ _ _ _ I)]. intros i Hi. apply UO. intros ->; auto.
  - eapply Permutation_NoDup; [|exact ND]. do 2 apply Permutation_app_head. simpl. exact PS.
  - rewrite <- (inv_len _ _ _ _ I). apply Permutation_length. symmetry.
    do 2 apply Permutation_app_head. simpl. exact PS.
  - intros i Hi. apply (inv_fly_lt _ _ _ _ I).
    eapply Permutation_in; [symmetry; exact PS|exact Hi].
  - intros i Hi. eapply busy_ok_frame with (s := s); simpl; auto; try lia.
    + apply (inv_busy_ok _ _ _ _ I); auto.
    + rewrite UB by auto. repeat split.
  - intros i Hi. rewrite UO; [apply (inv_free_ok _ _ _ _ I); auto|]. intros ->; auto.
  - intros x [<-|Hx].
    + destruct FO as (A1 & A2 & A3 & A4 & _). unfold fly_ok. simpl.
      split; [auto|split; [exact A2|split; [auto|split; [auto|]]]].
      rewrite upd_same. simpl. repeat split.
    + eapply fly_ok_frame with (s := s); simpl; auto; try lia.
      * apply (inv_fly_ok _ _ _ _ I); auto.
      * intros Hx2. rewrite UO; [repeat split|]. intros Ex. apply Ns. rewrite <- Ex.
        unfold fly_slots. apply in_flat_map. eauto.
  - eapply StronglySorted_ext; [|apply (inv_sorted _ _ _ _ I)].
    intros x y Hx Hy R. rewrite !UB by auto. auto.
  - pose proof (inv_gens _ _ _ _ I) as G.
    assert (EM : map (fun i => e_gen (upd (y_mem s) (i_ix f) e' i)) busy
               = map (fun i => e_gen (y_mem s i)) busy).
    { apply map_ext_in. intros i Hi. rewrite UB; auto. }
    rewrite EM. eapply Permutation_NoDup; [|exact G]. apply Permutation_app_head.
    apply (map_perm_replace _ i_gen _ f (set_stage f Filled (i_ix f)) tid P eq_refl).
  - pose proof (inv_tids _ _ _ _ I) as G. eapply Permutation_NoDup; [|exact G].
    apply (map_perm_replace _ i_tid _ f (set_stage f Filled (i_ix f)) tid P eq_refl).
  - apply (inv_next _ _ _ _ I).
  - intros x [<-|Hx]; simpl; apply (inv_fly_next _ _ _ _ I); auto.
  - apply (inv_uniq _ _ _ _ I).
  - apply (inv_armed_called _ _ _ _ I).
  - intros g c a n d t H NO.
    destruct (inv_out _ _ _ _ I _ _ _ _ _ _ H NO) as [(i & Hi & Eg)|(x & Hx & Eg)].
    + left. exists i. split; auto. rewrite UB; auto.
    + right. eapply Permutation_in in Hx; [|exact P].
      destruct Hx as [<-|Hx]; [|exists x; auto].
      eexists. split; [left; reflexivity|exact Eg].
  - apply (inv_log _ _ _ _ I).
  - apply (inv_tick _ _ _ _ I).
Qed.

Lemma add_finish_inv : forall cap s busy freel tid,
  Inv cap s busy freel -> timely s ->
  exists s' busy', add_finish cap s tid = Ok s' /\ Inv cap s' busy' freel.
Proof.
  intros cap s busy freel tid I T. unfold add_finish.
  destruct (find_fly tid (y_fly s)) as [f|] eqn:F; [|eauto].
  destruct (i_stage f) eqn:St; eauto.
  destruct (find_fly_perm _ _ _ (inv_tids _ _ _ _ I) F) as (Et & P & Hf).
  pose proof (inv_nodup _ _ _ _ I) as ND.
  assert (PS : Permutation (fly_slots (y_fly s)) (i_ix f :: fly_slots (drop_fly tid (y_fly s)))).
  { rewrite (fly_slots_perm _ _ P). simpl. unfold slot_of. rewrite St. reflexivity. }
  assert (InD : forall x, In x (drop_fly tid (y_fly s)) -> In x (y_fly s)).
  { intros x Hx. apply filter_In in Hx. tauto. }
  pose proof (inv_fly_ok _ _ _ _ I f Hf) as FO.
  assert (GD : forall x, In x (drop_fly tid (y_fly s)) -> i_gen x <> i_gen f).
  { intros x Hx Eg. pose proof (inv_gens _ _ _ _ I) as G. apply NoDup_app_remove_l in G.
    apply (Permutation_NoDup (Permutation_map i_gen P)) in G. simpl in G.
    inversion G; subst. apply H1. rewrite <- Eg. apply in_map; auto. }
  assert (Hs : In (i_ix f) (fly_slots (y_fly s))).
  { eapply Permutation_in; [symmetry; exact PS|left; auto]. }
  assert (Nb : ~ In (i_ix f) busy).
  { intro Hi. eapply NoDup_app_disj; [exact ND|exact Hi|]. apply in_app_iff; auto. }
  assert (Hix : (i_ix f < cap)%nat) by (apply (inv_fly_lt _ _ _ _ I); auto).
  assert (NDb : NoDup busy) by (apply NoDup_app_remove_r in ND; auto).
  destruct (add_link_spec cap _ _ _ _ (inv_busy _ _ _ _ I) NDb Hix Nb)
    as (m' & first' & l1 & l2 & EB & EL & D' & S' & O' & A1 & A2).
  rewrite EL. simpl obind. cbn [fst snd]. do 2 eexists. split; [reflexivity|].
  instantiate (1 := l1 ++ i_ix f :: l2).
  assert (DD : forall i,
     e_inuse (m' i) = e_inuse (y_mem s i) /\ e_when (m' i) = e_when (y_mem s i) /\
     e_due (m' i) = e_due (y_mem s i) /\ e_gen (m' i) = e_gen (y_mem s i) /\
     e_cb (m' i) = e_cb (y_mem s i) /\ e_arg (m' i) = e_arg (y_mem s i) /\
     e_name (m' i) = e_name (y_mem s i)).
  { intros i. destruct (S' i) as (?&?&?&?&?&?&?). repeat split; congruence. }
  destruct FO as (F1 & F2 & F3 & F4 & F5). rewrite St in F5.
  destruct F5 as (F5 & F6 & F7 & F8 & F9 & F10 & F11).
  (* comparison of wrapped times is comparison of due times *)
  destruct (fly_window _ _ _ _ _ I T Hf) as (W1 & W2).
  assert (CMP : forall i, In i busy ->
     s32 (u32 (e_when (y_mem s (i_ix f)) - e_when (y_mem s i))) = i_due f - e_due (y_mem s i)).
  { intros i Hi. destruct (busy_window _ _ _ _ _ I T Hi) as (V1 & V2).
    destruct (inv_busy_ok _ _ _ _ I i Hi) as (_ & Ew & _).
    rewrite F6, F1, Ew. apply s32_diff. unfold max_lag in *. lia. }
  assert (InB : forall i, In i (l1 ++ l2) <-> In i busy) by (intros; rewrite EB; tauto).
  assert (Perm : Permutation (busy ++ freel ++ fly_slots (y_fly s))
     ((l1 ++ i_ix f :: l2) ++ freel ++ fly_slots (drop_fly tid (y_fly s)))).
  { rewrite PS. rewrite EB. rewrite <- !app_assoc. apply Permutation_app_head.
    change ((i_ix f :: l2) ++ freel ++ fly_slots (drop_fly tid (y_fly s)))
      with (i_ix f :: l2 ++ freel ++ fly_slots (drop_fly tid (y_fly s))).
    rewrite !app_assoc. symmetry. apply Permutation_middle. }
  assert (ND' := Permutation_NoDup Perm ND).
  assert (DS : forall i, In i (l1 ++ i_ix f :: l2) ->
                 In i (freel ++ fly_slots (drop_fly tid (y_fly s))) -> False).
  { intros i H1 H2. eapply NoDup_app_disj; [exact ND'|exact H1|exact H2]. }
  assert (BO : forall i, In i busy -> busy_ok
     (mkSys m' first' (y_free s) (y_cycle s) (y_clk s) (y_tick s)
            (drop_fly tid (y_fly s)) (y_next_gen s)
            (EvArmed (i_gen f) (i_ix f) :: y_log s)) i).
  { intros i Hi. eapply busy_ok_frame with (s := s); simpl; auto; try lia.
    - apply (inv_busy_ok _ _ _ _ I); auto.
    - right. eexists. split; [reflexivity|]. simpl. eauto. }
  constructor; simpl.
  - apply (inv_cyc _ _ _ _ I).
  - exact D'.
  - eapply dl_frame; [|apply (inv_free _ _ _ _ I)]. intros i Hi. apply O'. intro Hb.
    apply (DS i Hb). apply in_app_iff; auto.
  - exact ND'.
  - rewrite <- (inv_len _ _ _ _ I). apply Permutation_length. symmetry. exact Perm.
  - intros i Hi. apply (inv_fly_lt _ _ _ _ I).
    eapply Permutation_in; [symmetry; exact PS|right; exact Hi].
  - intros i Hi. apply in_app_iff in Hi. destruct Hi as [Hi|[<-|Hi]].
    + apply BO. apply InB, in_app_iff; auto.
    + destruct (DD (i_ix f)) as (E1 & E2 & E3 & E4 & E5 & E6 & E7).
      unfold busy_ok. simpl. rewrite E1, E2, E3, E4, E5, E6, E7, F5, F6, F7, F8, F9, F10, F11.
      split; [auto|]. split; [auto|]. split; [eapply call_info_weaken; eauto; lia|].
      split; [auto|]. rewrite over_cons. intros [H|[H|[H|(?&?&?&H)]]]; try discriminate. auto.
    + apply BO. apply InB, in_app_iff; auto.
  - intros i Hi. destruct (DD i) as (Ei & _). rewrite Ei. apply (inv_free_ok _ _ _ _ I); auto.
  - intros x Hx. eapply fly_ok_frame with (s := s); simpl; auto; try lia.
    + apply (inv_fly_ok _ _ _ _ I); auto.
    + right. eexists. split; [reflexivity|]. simpl. intros Eg. symmetry in Eg.
      apply GD in Eg; auto.
  - assert (SS : StronglySorted (fun i j => e_due (m' i) <= e_due (m' j)) (l1 ++ l2)).
    { eapply StronglySorted_ext; [|rewrite <- EB; apply (inv_sorted _ _ _ _ I)].
      intros x y Hx Hy R. destruct (DD x) as (_ & _ & Ex & _).
      destruct (DD y) as (_ & _ & Ey & _). rewrite Ex, Ey. auto. }
    apply StronglySorted_insert; auto.
    + intros y Hy. destruct (DD y) as (_ & _ & Ey & _).
      destruct (DD (i_ix f)) as (_ & _ & Ex & _). rewrite Ex, Ey, F8.
      pose proof (A1 y Hy) as C. rewrite CMP in C by (apply InB, in_app_iff; auto). lia.
    + intros y Hy. destruct (DD y) as (_ & _ & Ey & _).
      destruct (DD (i_ix f)) as (_ & _ & Ex & _). rewrite Ex, F8.
      destruct l2 as [|z l2]; [destruct Hy|].
      pose proof (A2 z l2 eq_refl) as C.
      rewrite CMP in C by (apply InB, in_app_iff; right; left; auto).
      assert (e_due (m' z) <= e_due (m' y)).
      { clear - SS Hy. induction l1; simpl in SS.
        - apply (StronglySorted_hd _ (fun i j => e_due (m' i) <= e_due (m' j)) z l2 y
                   (fun z => Z.le_refl _) SS Hy).
        - inversion SS; auto. }
      destruct (DD z) as (_ & _ & Ez & _). lia.
  - pose proof (inv_gens _ _ _ _ I) as G.
    assert (EM : map (fun i => e_gen (m' i)) (l1 ++ i_ix f :: l2)
               = map (fun i => e_gen (y_mem s i)) (l1 ++ i_ix f :: l2)).
    { apply map_ext. intros i. apply DD. }
    rewrite EM. eapply Permutation_NoDup; [|exact G].
    rewrite (Permutation_map i_gen P). rewrite EB. rewrite !map_app. simpl. rewrite F7.
    rewrite <- !app_assoc. apply Permutation_app_head. simpl.
    symmetry. apply Permutation_middle.
  - pose proof (inv_tids _ _ _ _ I) as G.
    apply (Permutation_NoDup (Permutation_map i_tid P)) in G. simpl in G. inversion G; auto.
  - intros e [<-|He]; [simpl|apply (inv_next _ _ _ _ I); auto].
    apply (inv_fly_next _ _ _ _ I); auto.
  - intros x Hx. apply (inv_fly_next _ _ _ _ I). auto.
  - intros g c a n d t c' a' n' d' t' [H|H] [H'|H']; try discriminate.
    eapply (inv_uniq _ _ _ _ I); eauto.
  - intros g i [H|H].
    + inversion H; subst. destruct F2 as (delay & t & sd & H1 & _).
      do 5 eexists. right. exact H1.
    + destruct (inv_armed_called _ _ _ _ I _ _ H) as (c & a & n & d & t & C).
      exists c, a, n, d, t. right; auto.
  - intros g c a n d t [H|H] NO; [discriminate|]. rewrite over_cons in NO.
    destruct (inv_out _ _ _ _ I _ _ _ _ _ _ H) as [(i & Hi & Eg)|(x & Hx & Eg)].
    + tauto.
    + left. exists i. split.
      * apply InB in Hi. apply in_app_iff in Hi. apply in_app_iff. simpl. tauto.
      * destruct (DD i) as (_ & _ & _ & Ei & _). congruence.
    + eapply Permutation_in in Hx; [|exact P]. destruct Hx as [<-|Hx].
      * left. exists (i_ix f). split; [apply in_app_iff; simpl; auto|].
        destruct (DD (i_ix f)) as (_ & _ & _ & Ei & _). congruence.
      * right. exists x. auto.
  - split; [apply (inv_log _ _ _ _ I)|auto].
  - apply (inv_tick _ _ _ _ I).
Qed.

Lemma remove_inv : forall cap s busy freel name idx g,
  (Z.of_nat cap <= 65536) ->
  Inv cap s busy freel -> 0 <= idx < 4294967296 -> own_handle cap s name idx g ->
  exists s' busy' freel', remove cap s name idx = Ok s' /\ Inv cap s' busy' freel' /\
    (y_log s' = y_log s \/ (y_log s' = EvRemoved g :: y_log s /\ armed (y_log s) g)).
Proof.
  intros cap s busy freel name idx g Hcap I Hidx OH. unfold remove.
  destruct (Z.eqb_spec idx 0); simpl; [eauto 10|].
  destruct (Z.ltb_spec (Z.of_nat cap) idx); [eauto 10|].
  assert (EU : u16 (idx - 1) = idx - 1). { unfold u16. apply Z.mod_small. lia. }
  rewrite EU.
  destruct (Z.eqb_spec (e_name (y_mem s (Z.to_nat (idx - 1)))) name); simpl; [|eauto 10].
  destruct (e_inuse (y_mem s (Z.to_nat (idx - 1)))) eqn:U; simpl; [|eauto 10].
  destruct OH as [(ix & cb & arg & delay & t & A & AR & C & E)|[H0|[H0|H0]]]; try lia; try congruence.
  assert (Eix : Z.to_nat (idx - 1) = ix) by lia. rewrite Eix in *.
  destruct (proj1 (inv_armed_busy _ _ _ _ g I) AR) as (i & Hi & Eg).
  destruct (inv_busy_ok _ _ _ _ I i Hi) as (_ & _ & _ & A' & NO). rewrite Eg in A', NO.
  (* the arming is at slot [ix]: an arming is announced once *)
  assert (i = ix) by (eapply log_ok_armed_uniq; [apply (inv_log _ _ _ _ I)| |]; eauto).
  subst i. apply in_split in Hi. destruct Hi as (l1 & l2 & ->).
  destruct (release_inv cap s l1 ix l2 freel (EvRemoved (e_gen (y_mem s ix))) I)
    as (m1 & m2 & first' & E1 & S1 & E2 & ED & I').
  - auto.
  - simpl. split; [apply (inv_log _ _ _ _ I)|]. rewrite Eg. auto.
  - rewrite E1. simpl obind. cbn [fst snd]. rewrite E2. simpl obind. cbn [fst snd].
    do 3 eexists. split; [reflexivity|]. split; [exact I'|]. right. simpl. rewrite Eg. auto.
Qed.

Lemma tick_cond_spec : forall cap s busy freel now,
  Inv cap s busy freel -> timely s -> y_tick s = Some now ->
  (tick_cond cap s now = true <->
   exists ix l, busy = ix :: l /\ e_due (y_mem s ix) <= now).
Proof.
  intros cap s busy freel now I T ET. unfold tick_cond.
  pose proof (dl_hd _ _ _ _ (inv_busy _ _ _ _ I)) as Hq.
  pose proof (inv_tick _ _ _ _ I _ ET) as TL.
  destruct busy as [|ix l]; simpl in Hq.
  - rewrite Hq, Nat.ltb_irrefl. simpl. split; [discriminate|]. intros (? & ? & H & _). discriminate.
  - rewrite Hq.
    assert (Hi : In ix (ix :: l)) by (left; auto).
    assert (Hix : (ix < cap)%nat) by (eapply dl_lt; [apply (inv_busy _ _ _ _ I)|auto]).
    rewrite (proj2 (Nat.ltb_lt _ _) Hix). simpl.
    destruct (busy_window _ _ _ _ _ I T Hi) as (V1 & V2).
    destruct (inv_busy_ok _ _ _ _ I ix Hi) as (_ & Ew & _).
    pose proof (inv_cyc _ _ _ _ I) as Cy.
    pose proof (proj2 T _ ET) as V3.
    rewrite Ew, s32_diff by (unfold max_lag in *; unfold max_delay in *; lia).
    rewrite Z.leb_le. split.
    + intros. exists ix, l. split; auto. lia.
    + intros (? & ? & H & H'). inversion H; subst. lia.
Qed.

Lemma tick_pop_inv : forall cap s busy freel,
  Inv cap s busy freel -> timely s ->
  exists s' busy' freel', tick_pop cap s = Ok s' /\ Inv cap s' busy' freel' /\
   (s' = s \/
    exists now ix l, y_tick s = Some now /\ busy = ix :: l /\ busy' = l /\
      freel' = ix :: freel /\ e_due (y_mem s ix) <= now /\
      (forall i, e_due (y_mem s' i) = e_due (y_mem s i)) /\
      y_fly s' = y_fly s /\ y_tick s' = y_tick s /\
      y_log s' = EvFired (e_gen (y_mem s ix)) (e_cb (y_mem s ix)) (e_arg (y_mem s ix)) (y_clk s)
                   :: y_log s).
Proof.
  intros cap s busy freel I T. unfold tick_pop.
  destruct (y_tick s) as [now|] eqn:ET; [|eauto 10].
  destruct (tick_cond cap s now) eqn:TC; [|eauto 10].
  apply (tick_cond_spec _ _ _ _ _ I T ET) in TC. destruct TC as (ix & l & -> & LE).
  pose proof (dl_hd _ _ _ _ (inv_busy _ _ _ _ I)) as Hq. simpl in Hq. rewrite Hq.
  assert (Hi : In ix (ix :: l)) by (left; auto).
  pose proof (inv_busy_ok _ _ _ _ I ix Hi) as (B1 & B2 & B3 & B4 & B5).
  pose proof (inv_tick _ _ _ _ I _ ET) as TL.
  destruct (release_inv cap s [] ix l freel
     (EvFired (e_gen (y_mem s ix)) (e_cb (y_mem s ix)) (e_arg (y_mem s ix)) (y_clk s)) I)
    as (m1 & m2 & first' & E1 & S1 & E2 & ED & I').
  - eauto.
  - split; [apply (inv_log _ _ _ _ I)|]. split; [split; eauto|]. split.
    + destruct B3 as (delay & t & sd & C1 & C2 & C3 & C4 & C5).
      exists (e_name (y_mem s ix)), delay, t, sd. repeat split; auto. lia.
    + intros g' d d' AR D D'.
      assert (d = e_due (y_mem s ix)).
      { eapply inv_due_unique; eauto. eapply call_info_due; eauto. }
      destruct (proj1 (inv_armed_busy _ _ _ _ g' I) AR) as (j & Hj & Ej).
      pose proof (inv_busy_ok _ _ _ _ I j Hj) as (_ & _ & J & _).
      assert (d' = e_due (y_mem s j)).
      { eapply inv_due_unique; eauto. rewrite <- Ej. eapply call_info_due; eauto. }
      subst d d'.
      apply (StronglySorted_hd _ (fun i j => e_due (y_mem s i) <= e_due (y_mem s j)) ix l j
               (fun z => Z.le_refl _) (inv_sorted _ _ _ _ I) Hj).
  - rewrite Hq in E1. rewrite E1. simpl obind. cbn [fst snd]. rewrite E2. simpl obind. cbn [fst snd].
    destruct (S1 ix) as (_ & _ & _ & Q4 & Q5 & Q6 & _).
    rewrite Q4, Q5, Q6. rewrite ET in I'.
    do 3 eexists. split; [reflexivity|]. split; [exact I'|]. right.
    exists now, ix, l. simpl. repeat split; auto.
Qed.

(** ** Every allowed step succeeds and keeps the invariant *)

Lemma step_inv : forall cap s busy freel l,
  Z.of_nat cap <= 65536 ->
  Inv cap s busy freel -> allowed cap s l ->
  exists s' busy' freel', step cap s l = Ok s' /\ Inv cap s' busy' freel'.
Proof.
  intros cap s busy freel l Hc I (T & A). destruct l; simpl in *.
  - do 3 eexists. split; [reflexivity|]. apply time_inv. eauto.
  - destruct (add_call_inv cap s busy freel tid delay cb arg name I A) as (s' & E & I'); eauto.
  - destruct (add_take_inv cap s busy freel tid I) as (s' & f' & E & I'); eauto.
  - destruct (add_fill_inv cap s busy freel tid I) as (s' & E & I'); eauto.
  - destruct (add_finish_inv cap s busy freel tid I T) as (s' & b' & E & I'); eauto.
  - destruct A as (A1 & A2).
    destruct (remove_inv cap s busy freel name idx gen Hc I A1 A2)
      as (s' & b' & f' & E & I' & _); eauto.
  - destruct (y_tick s) eqn:ET; [eauto|].
    do 3 eexists. split; [reflexivity|]. eapply set_tick_inv; eauto.
    intros t0 H; inversion H; lia.
  - destruct (tick_pop_inv cap s busy freel I T) as (s' & b' & f' & E & I' & _); eauto.
  - destruct (y_tick s) eqn:ET; [|eauto].
    destruct (tick_cond cap s z); [eauto|].
    do 3 eexists. split; [reflexivity|]. eapply set_tick_inv; eauto. discriminate.
Qed.

Lemma reach_inv : forall cap cyc clk0 s,
  Z.of_nat cap <= 65536 -> 0 < cyc <= 2000000000 ->
  reach cap cyc clk0 s -> exists busy freel, Inv cap s busy freel /\ y_cycle s = cyc.
Proof.
  intros cap cyc clk0 s Hc Hy R. induction R.
  - do 2 eexists. split; [eapply init_inv; eauto|].
    unfold init in H. destruct (cyc <=? 0); [discriminate|].
    destruct (init_loop cap cap (fun _ => zero_entry) cap); simpl in H; try discriminate.
    inversion H; reflexivity.
  - destruct IHR as (b & f & I & E).
    destruct (step_inv _ _ _ _ _ Hc I H) as (s2 & b' & f' & E' & I').
    rewrite H0 in E'. inversion E'; subst s2. exists b', f'. split; auto.
    rewrite <- E. clear - H0.
    destruct l; simpl in H0;
      unfold add_call, add_take, add_fill, add_finish, remove, tick_pop, set_tick in H0;
      repeat (match goal with
      | H : Ok _ = Ok _ |- _ => inversion H; subst; clear H; try reflexivity
      | H : AssertFail = Ok _ |- _ => discriminate
      | H : Ub = Ok _ |- _ => discriminate
      | H : context [obind ?o _] |- _ => destruct o; simpl obind in H
      | H : context [match ?x with _ => _ end] |- _ => destruct x
      end; cbv zeta in * ).
Qed.
