(** Properties C26 and C44 of the background worker. *)
From Coq Require Import List ZArith Arith Bool Lia.
From Verif Require Import Base BgModel.
Import ListNotations.

(** * Specification *)

Definition count_work (l : list bev) : nat := length (filter (fun e => match e with BWork => true | _ => false end) l).

Definition reachable (s : bg) : Prop := exists l, s = fst (brun bg0 l).

(** * Lemmas *)

Definition pending (s : bg) (j : job) : bool := Z.testbit (g_events s) (job_bit j).

Lemma job_bit_nonneg : forall j, (0 <= job_bit j < 4)%Z.
Proof. destruct j; cbn; lia. Qed.

Lemma job_bit_inj : forall a b, job_bit a = job_bit b -> a = b.
Proof. destruct a, b; cbn; intros H; try reflexivity; discriminate H. Qed.

Lemma set_bit : forall e a b, Z.testbit (ev_set e (job_bit a)) (job_bit b) = Z.testbit e (job_bit b) || job_eqb a b.
Proof.
  intros e a b. unfold ev_set. rewrite Z.lor_spec, Z.shiftl_1_l. f_equal.
  pose proof (job_bit_nonneg a). pose proof (job_bit_nonneg b).
  rewrite Z.pow2_bits_eqb by lia. destruct a, b; reflexivity.
Qed.

Lemma clr_bit : forall e a b, Z.testbit (ev_clr e (job_bit a)) (job_bit b) = Z.testbit e (job_bit b) && negb (job_eqb a b).
Proof.
  intros e a b. unfold ev_clr. rewrite Z.ldiff_spec, Z.shiftl_1_l. f_equal.
  pose proof (job_bit_nonneg a). pose proof (job_bit_nonneg b).
  rewrite Z.pow2_bits_eqb by lia. destruct a, b; reflexivity.
Qed.

Definition pos_of (j : job) : nat := match j with JAse => 0 | JIm => 1 | JPdport => 2 | JPorts => 3 end.

Lemma job_at_pos : forall j, job_at (pos_of j) = Some j.
Proof. destruct j; reflexivity. Qed.

Lemma job_at_inv : forall i j, job_at i = Some j -> i = pos_of j.
Proof. intros [|[|[|[|i]]]] j H; cbn in H; try discriminate H; injection H as <-; reflexivity. Qed.

Lemma job_eqb_eq : forall a b, job_eqb a b = true <-> a = b.
Proof. destruct a, b; cbn; split; intros H; try reflexivity; discriminate H. Qed.

Lemma job_eqb_refl : forall a, job_eqb a a = true.
Proof. destruct a; reflexivity. Qed.

(** The request is owed: its flag is set, or the worker has taken it and not yet
    called the function. *)
Definition owed (s : bg) (j : job) : Prop :=
  pending s j = true \/ exists flags, g_pc s = WExec flags (pos_of j).

(** Number of worker steps until the function is called. *)
Definition dist (s : bg) (j : job) : nat :=
  match g_pc s with
  | WExec flags i => if Nat.eqb i (pos_of j) then 1
                     else if (i <? pos_of j)%nat && Z.testbit flags (job_bit j) then 2 * (pos_of j - i) + 1
                     else 11 + 2 * (4 - i)
  | WCheck flags i => if (i <=? pos_of j)%nat && Z.testbit flags (job_bit j) then 2 * (pos_of j - i) + 2
                      else 12 + 2 * (4 - i)
  | WWait => 9
  end.

Lemma pending_wait : forall s j, pending s j = true -> (Z.land (g_events s) wmask =? 0)%Z = false.
Proof.
  intros s j P. apply Z.eqb_neq. intros H. unfold pending in P.
  assert (Q : Z.testbit (Z.land (g_events s) wmask) (job_bit j) = true).
  { rewrite Z.land_spec, P. destruct j; reflexivity. }
  rewrite H, Z.bits_0 in Q. discriminate Q.
Qed.

(** The worker's position is inside the loop. *)
Definition pc_ok (s : bg) : Prop :=
  match g_pc s with WWait => True | WCheck _ i => (i <= 4)%nat | WExec _ i => (i < 4)%nat end.

Lemma pc_ok_step : forall s e, pc_ok s -> pc_ok (fst (bstep s e)).
Proof.
  intros [ev pc] [id|] H; [exact H|]. cbn [bstep]. unfold wstep, pc_ok in *. cbn [g_pc g_events] in *.
  destruct pc as [|flags i|flags i].
  - destruct (_ =? 0)%Z; cbn; lia.
  - destruct (job_at i) as [k|] eqn:K; [|exact Logic.I]. apply job_at_inv in K. subst i.
    destruct (Z.testbit flags (job_bit k)); cbn [fst g_pc]; destruct k; cbn; lia.
  - destruct (job_at i); cbn [fst g_pc]; lia.
Qed.

Lemma brun_cons : forall s e r, brun s (e :: r) =
  (fst (brun (fst (bstep s e)) r), snd (bstep s e) :: snd (brun (fst (bstep s e)) r)).
Proof. intros s e r. cbn [brun]. destruct (bstep s e) as [s1 t]. cbn [fst snd]. destruct (brun s1 r). reflexivity. Qed.

Lemma reachable_pc : forall s, reachable s -> pc_ok s.
Proof.
  intros s (l & ->). assert (G : forall l s, pc_ok s -> pc_ok (fst (brun s l))).
  { clear l. induction l as [|e l IH]; intros s H; [exact H|]. rewrite brun_cons. apply IH, pc_ok_step, H. }
  apply G. exact Logic.I.
Qed.

(** A worker step makes progress towards an owed job. *)
Lemma work_progress : forall s j, pc_ok s -> owed s j ->
  exists s', (wstep s = Some (s', Some j)) \/
  (exists o, wstep s = Some (s', o) /\ owed s' j /\ (dist s' j < dist s j)%nat).
Proof.
  intros [ev pc] j PO O. unfold wstep. cbn [g_pc g_events].
  destruct pc as [|flags i|flags i].
  - destruct O as [P|(fl & E)]; [|discriminate E].
    pose proof (pending_wait _ _ P) as W. cbn [g_events] in W. rewrite W.
    exists (mkBg ev (WCheck ev 0)). right. exists None. split; [reflexivity|].
    split; [left; exact P|]. unfold dist. cbn [g_pc]. unfold pending in P. cbn [g_events] in P. rewrite P.
    destruct j; cbn; lia.
  - destruct O as [P|(fl & E)]; [|discriminate E]. unfold pending in P. cbn [g_events] in P.
    destruct (job_at i) as [k|] eqn:K.
    + apply job_at_inv in K. subst i. destruct (Z.testbit flags (job_bit k)) eqn:B.
      * eexists. right. eexists. split; [reflexivity|]. split.
        -- destruct (job_eqb k j) eqn:E.
           ++ right. apply job_eqb_eq in E. subst k. exists flags. reflexivity.
           ++ left. unfold pending. cbn [g_events]. rewrite clr_bit, P, E. reflexivity.
        -- unfold dist. cbn [g_pc]. destruct (Z.testbit flags (job_bit j)) eqn:Bj; clear P; destruct j, k; try congruence; cbn; lia.
      * eexists. right. eexists. split; [reflexivity|]. split; [left; exact P|].
        unfold dist. cbn [g_pc]. destruct (Z.testbit flags (job_bit j)) eqn:Bj; clear P; destruct j, k; try congruence; cbn; lia.
    + eexists. right. eexists. split; [reflexivity|]. split; [left; exact P|].
      unfold dist. cbn [g_pc]. destruct i as [|[|[|[|i]]]]; try discriminate K. 
      destruct j; cbn; lia.
  - destruct (Nat.eq_dec i (pos_of j)) as [->|NE].
    + eexists. left. rewrite job_at_pos. reflexivity.
    + eexists. right. eexists. split; [reflexivity|].
      assert (P : pending (mkBg ev (WExec flags i)) j = true).
      { destruct O as [P|(fl & E)]; [exact P|]. cbn [g_pc] in E. congruence. }
      split; [left; exact P|]. unfold dist. unfold pc_ok in PO. cbn [g_pc] in *.
      destruct (Nat.eqb_spec i (pos_of j)); [contradiction|].
      destruct (Nat.ltb_spec i (pos_of j)); destruct (Nat.leb_spec (S i) (pos_of j)); try lia;
      destruct (Z.testbit flags (job_bit j)); cbn [andb]; lia.
Qed.

Lemma req_keeps : forall s id j, owed s j -> owed (fst (bstep s (BReq id))) j /\ dist (fst (bstep s (BReq id))) j = dist s j.
Proof.
  intros [ev pc] id j O. cbn [bstep fst g_events g_pc]. split; [|reflexivity].
  destruct O as [P|(fl & E)]; [left|right; exists fl; exact E].
  unfold pending in *. cbn [g_events] in *. unfold start_job. destruct (job_of_id id); cbn [snd]; [|exact P].
  rewrite set_bit, P. reflexivity.
Qed.

Lemma dist_pos : forall s j, (1 <= dist s j)%nat.
Proof.
  intros [ev pc] j. unfold dist. cbn [g_pc]. destruct pc as [|flags i|flags i];
  repeat match goal with |- context [if ?b then _ else _] => destruct b end; lia.
Qed.

Lemma owed_executed : forall l s j, pc_ok s -> owed s j -> (dist s j <= count_work l)%nat -> In (TExec j) (snd (brun s l)).
Proof.
  induction l as [|e l IH]; intros s j PO O D.
  - exfalso. cbn in D. pose proof (dist_pos s j). lia.
  - rewrite brun_cons. cbn [snd]. destruct e as [id|].
    + right. destruct (req_keeps s id j O) as (A & B). apply IH; [apply pc_ok_step, PO|exact A|]. rewrite B. exact D.
    + destruct (work_progress s j PO O) as (s' & [H|(o & H & O' & L)]).
      * left. cbn [bstep]. rewrite H. reflexivity.
      * right. assert (E : fst (bstep s BWork) = s') by (cbn [bstep]; rewrite H; destruct o; reflexivity).
        pose proof (pc_ok_step s BWork PO) as PO'. rewrite E in *.
        apply IH; [exact PO'|exact O'|]. unfold count_work in *. cbn [filter length] in D. lia.
Qed.

Lemma dist_bound : forall s j, (dist s j <= 20)%nat.
Proof.
  intros [ev pc] j. unfold dist. cbn [g_pc]. destruct pc as [|flags i|flags i]; [lia| |];
  repeat match goal with |- context [if ?b then _ else _] => destruct b end; destruct j; cbn [pos_of]; lia.
Qed.

Lemma req_owed : forall s id j, job_of_id id = Some j -> owed (fst (bstep s (BReq id))) j.
Proof.
  intros s id j J. left. unfold pending. cbn [bstep fst g_events]. unfold start_job. rewrite J. cbn [snd].
  rewrite set_bit, job_eqb_refl, orb_true_r. reflexivity.
Qed.

(** ** C26 *)

(** A request accepted in any state reached by any interleaving is followed by a
    call of the job's function once the worker has been given 20 steps, however
    these steps are interleaved with further requests. *)
Theorem C26_no_lost_job : forall s id j after, reachable s -> job_of_id id = Some j ->
  (20 <= count_work after)%nat ->
  fst (start_job (g_events s) id) = 0%Z /\
  In (TExec j) (snd (brun (fst (bstep s (BReq id))) after)).
Proof.
  intros s id j after R J C. split; [unfold start_job; rewrite J; reflexivity|].
  apply owed_executed; [apply pc_ok_step, reachable_pc, R|apply req_owed, J|].
  pose proof (dist_bound (fst (bstep s (BReq id))) j). lia.
Qed.
Print Assumptions C26_no_lost_job.

(** The worker is never blocked while a job is owed. *)
Theorem C26_worker_not_blocked : forall s id j l, reachable s -> job_of_id id = Some j ->
  ~ In (TExec j) (snd (brun (fst (bstep s (BReq id))) l)) ->
  wstep (fst (brun (fst (bstep s (BReq id))) l)) <> None.
Proof.
  intros s id j l R J N. pose proof (req_owed s id j J) as O.
  pose proof (pc_ok_step s (BReq id) (reachable_pc s R)) as PO.
  set (s1 := fst (bstep s (BReq id))) in *. clearbody s1. clear J R id s.
  revert s1 PO O N. induction l as [|e l IH]; intros s1 PO O N.
  - cbn. destruct (work_progress s1 j PO O) as (s' & [H|(o & H & _ & L)]); rewrite H; discriminate.
  - rewrite brun_cons in *. cbn [fst snd] in *. apply IH; [apply pc_ok_step, PO| |intros Q; apply N; right; exact Q].
    destruct e as [id|]; [apply req_keeps; exact O|].
    destruct (work_progress s1 j PO O) as (s' & [H|(o & H & O' & L)]).
    + exfalso. apply N. left. cbn [bstep]. rewrite H. reflexivity.
    + replace (fst (bstep s1 BWork)) with s' by (cbn [bstep]; rewrite H; destruct o; reflexivity). exact O'.
Qed.
Print Assumptions C26_worker_not_blocked.

(** A job function is called only for a request: in every run from start, calls
    of a job never outnumber its requests; several requests may merge. *)
Definition reqs (j : job) (t : list btr) : nat := length (filter (fun x => match x with TReq k => job_eqb j k | _ => false end) t).
Definition execs (j : job) (t : list btr) : nat := length (filter (fun x => match x with TExec k => job_eqb j k | _ => false end) t).

(** Outstanding work that the state accounts for. *)
Definition credit (s : bg) (j : job) : nat :=
  (if pending s j then 1 else 0) +
  (match g_pc s with WExec _ i => if Nat.eqb i (pos_of j) then 1 else 0 | _ => 0 end).

Definition flags_ok (s : bg) : Prop :=
  match g_pc s with
  | WCheck flags i => forall j, (i <= pos_of j)%nat -> Z.testbit flags (job_bit j) = true -> pending s j = true
  | WExec flags i => forall j, (i < pos_of j)%nat -> Z.testbit flags (job_bit j) = true -> pending s j = true
  | WWait => True
  end.

Lemma bstep_flags : forall s e, flags_ok s -> flags_ok (fst (bstep s e)).
Proof.
  intros [ev pc] e F. destruct e as [id|].
  - unfold flags_ok in *. cbn [bstep fst g_pc g_events] in *.
    assert (M : forall j, Z.testbit ev (job_bit j) = true -> Z.testbit (snd (start_job ev id)) (job_bit j) = true).
    { intros j P. unfold start_job. destruct (job_of_id id); cbn [snd]; [rewrite set_bit, P; reflexivity|exact P]. }
    unfold pending in *. cbn [g_events] in *.
    destruct pc as [|flags i|flags i]; [exact Logic.I| |]; intros j A B; apply M; apply F; auto.
  - cbn [bstep]. unfold wstep. cbn [g_pc g_events]. destruct pc as [|flags i|flags i].
    + destruct (_ =? 0)%Z; [exact F|]. cbn [fst]. unfold flags_ok. cbn [g_pc]. intros j _ B. exact B.
    + destruct (job_at i) as [k|] eqn:K; [|exact Logic.I]. apply job_at_inv in K. subst i.
      destruct (Z.testbit flags (job_bit k)) eqn:B; cbn [fst]; unfold flags_ok in *; cbn [g_pc] in *; intros j A Q.
      * unfold pending. cbn [g_events]. rewrite clr_bit. specialize (F j ltac:(lia) Q). unfold pending in F. cbn [g_events] in F.
        rewrite F. destruct (job_eqb k j) eqn:E; [apply job_eqb_eq in E; subst; lia|reflexivity].
      * apply F; [lia|exact Q].
    + destruct (job_at i) as [k|]; cbn [fst]; unfold flags_ok in *; cbn [g_pc] in *; intros j A Q; apply F; auto.
Qed.

Lemma bstep_credit : forall s e j, flags_ok s ->
  (credit (fst (bstep s e)) j + execs j [snd (bstep s e)] <= credit s j + reqs j [snd (bstep s e)])%nat.
Proof.
  intros [ev pc] e j F.
  Local Ltac fin := cbn [fst snd]; unfold credit, pending, execs, reqs; cbn [g_pc g_events filter length]; lia. destruct e as [id|].
  - cbn [bstep fst snd g_events g_pc]. unfold credit, pending. cbn [g_events g_pc]. unfold start_job.
    destruct (job_of_id id) as [k|]; cbn [snd]; [|fin].
    unfold reqs, execs. cbn [filter length]. rewrite set_bit.
    destruct (job_eqb j k) eqn:E; cbn [length].
    + destruct (Z.testbit ev (job_bit j)), (job_eqb k j); cbn [orb]; lia.
    + replace (job_eqb k j) with false by (destruct j, k; reflexivity || discriminate E). rewrite orb_false_r. lia.
  - cbn [bstep]. unfold wstep. cbn [g_pc g_events]. destruct pc as [|flags i|flags i].
    + destruct (_ =? 0)%Z; fin.
    + destruct (job_at i) as [k|] eqn:K; [|fin]. apply job_at_inv in K. subst i.
      destruct (Z.testbit flags (job_bit k)) eqn:B; [|fin].
      cbn [fst snd reqs execs filter length]. unfold credit, pending, flags_ok in *. cbn [g_events g_pc] in *.
      rewrite clr_bit. specialize (F k (le_n _) B). unfold pending in F. cbn [g_events] in F.
      cbn [reqs execs filter length].
      destruct (Nat.eqb_spec (pos_of k) (pos_of j)) as [E|E].
      * assert (k = j) by (destruct j, k; reflexivity || discriminate E). subst k. rewrite F, job_eqb_refl. cbn. lia.
      * replace (job_eqb k j) with false by (destruct j, k; reflexivity || (exfalso; apply E; reflexivity)).
        rewrite andb_true_r. unfold execs, reqs. cbn. lia.
    + destruct (job_at i) as [k|] eqn:K.
      * apply job_at_inv in K. subst i. cbn [fst snd]. unfold credit, pending, execs, reqs. cbn [g_pc g_events filter length].
        destruct (job_eqb j k) eqn:E; cbn [length]; [|destruct (Nat.eqb (pos_of k) (pos_of j)); lia].
        apply job_eqb_eq in E. subst k. rewrite Nat.eqb_refl. lia.
      * fin.
Qed.

Theorem C26_only_requested : forall l j, (execs j (snd (brun bg0 l)) <= reqs j (snd (brun bg0 l)))%nat.
Proof.
  intros l j.
  assert (G : forall l s, flags_ok s -> (execs j (snd (brun s l)) <= credit s j + reqs j (snd (brun s l)))%nat).
  { clear l. induction l as [|e l IH]; intros s F; [cbn; lia|]. rewrite brun_cons. cbn [snd].
    specialize (IH _ (bstep_flags s e F)). pose proof (bstep_credit s e j F) as C.
    unfold execs, reqs in *. cbn [filter] in *.
    destruct (match snd (bstep s e) with TExec k => job_eqb j k | _ => false end);
    destruct (match snd (bstep s e) with TReq k => job_eqb j k | _ => false end); cbn [length] in *; lia. }
  specialize (G l bg0 Logic.I). assert (credit bg0 j = O) by (destruct j; reflexivity). lia.
Qed.
Print Assumptions C26_only_requested.

(** Unknown job numbers are refused and do not disturb the others. *)
Theorem C26_unknown_refused : forall ev id, job_of_id id = None <-> ~ (0 <= id <= 3)%Z /\ start_job ev id = ((-1)%Z, ev).
Proof.
  intros ev id. unfold start_job, job_of_id.
  destruct (Z.eqb_spec id 0); [subst; split; intros H; [discriminate H|destruct H; lia]|].
  destruct (Z.eqb_spec id 1); [subst; split; intros H; [discriminate H|destruct H; lia]|].
  destruct (Z.eqb_spec id 2); [subst; split; intros H; [discriminate H|destruct H; lia]|].
  destruct (Z.eqb_spec id 3); [subst; split; intros H; [discriminate H|destruct H; lia]|].
  split; intros H; [split; [lia|reflexivity]|reflexivity].
Qed.
Print Assumptions C26_unknown_refused.

(** Each job runs its own function: job numbers 0..3 are ports status, ASE, I&M
    and PDPort. *)
Theorem C26_job_numbers : job_of_id 0 = Some JPorts /\ job_of_id 1 = Some JAse /\ job_of_id 2 = Some JIm /\ job_of_id 3 = Some JPdport.
Proof. repeat split. Qed.

Example ex_bg : snd (brun bg0 [BReq 2; BWork; BWork; BWork; BReq 2; BWork; BWork; BWork; BWork; BWork; BWork; BWork; BWork])%Z =
  [TReq JIm; TTau; TTau; TTau; TReq JIm; TExec JIm; TTau; TTau; TTau; TTau; TTau; TTau; TExec JIm].
Proof. reflexivity. Qed.

(** ** C44 *)

(** The network settings are stored without holding the lock: an update during
    the write gives a file that mixes old and new settings. *)
Theorem C44_ase_torn_refuted : exists (o : shared) t old new,
  (forall t', o t' = old \/ o t' = new) /\
  length old = 2%nat /\ length new = 2%nat /\
  forall t', save_ase_bytes o t 2 <> o t'.
Proof.
  exists (fun t => if (t <? 1)%nat then [1; 1]%Z else [2; 2]%Z), 0%nat, [1; 1]%Z, [2; 2]%Z.
  split; [intros t'; destruct (t' <? 1)%nat; auto|]. split; [reflexivity|]. split; [reflexivity|].
  intros t'. destruct (t' <? 1)%nat; discriminate.
Qed.
Print Assumptions C44_ase_torn_refuted.

(** Without an update during the write the stored settings are right. *)
Theorem C44_ase_quiet_partial : forall (o : shared) t size v,
  length v = size -> (forall k, (k < size)%nat -> o (t + k)%nat = v) -> save_ase_bytes o t size = v.
Proof.
  intros o t size v L Q. unfold save_ase_bytes.
  assert (G : forall n i t', (forall k, (k < n)%nat -> o (t' + k)%nat = v) -> (i + n = length v)%nat ->
    read_unlocked o t' i n = skipn i v).
  { clear. induction n as [|n IH]; intros i t' H E.
    - cbn. rewrite skipn_all2 by lia. reflexivity.
    - cbn [read_unlocked]. pose proof (H 0%nat ltac:(lia)) as H0. rewrite Nat.add_0_r in H0. rewrite H0.
      rewrite IH; [|intros k K; replace (S t' + k)%nat with (t' + S k)%nat by lia; apply H; lia|lia].
      clear -E. revert v E. induction i as [|i IH]; intros [|x v] E; cbn [length] in E; try lia; [reflexivity|].
      cbn [nth skipn]. apply IH. lia. }
  rewrite (G size 0%nat t) by (auto; lia). reflexivity.
Qed.
Print Assumptions C44_ase_quiet_partial.

(** I&M and port data are stored as they were at one instant between the call and
    the end of the write, whatever happens to them meanwhile. *)
Theorem C44_locked_snapshot : forall (o : shared) t size, (forall t', length (o t') = size) ->
  save_im_bytes o t size = o t.
Proof.
  intros o t size L. unfold save_im_bytes, read_locked.
  apply (C44_ase_quiet_partial (fun _ => o t) (S t) size (o t)); auto.
Qed.
Print Assumptions C44_locked_snapshot.
