(** Doubly-linked-list reasoning for the timer table. *)
From Coq Require Import List ZArith Arith Bool Lia.
From Verif Require Import Base SchedModel.
Import ListNotations.

Section Seg.
Variable cap : nat.

(** [seg m p q l p' q']: starting with predecessor [p] and pointer [q], the
    table contains the chain [l], after which predecessor is [p'] and pointer
    is [q']. *)
Fixpoint seg (m : mem) (p q : nat) (l : list nat) (p' q' : nat) : Prop :=
  match l with
  | [] => p = p' /\ q = q'
  | i :: t => q = i /\ i < cap /\ e_prev (m i) = p /\ seg m i (e_next (m i)) t p' q'
  end.

Definition dl (m : mem) (q : nat) (l : list nat) : Prop :=
  exists p', seg m cap q l p' cap.

Lemma seg_app : forall m l1 l2 p q p' q',
  seg m p q (l1 ++ l2) p' q' <->
  exists pm qm, seg m p q l1 pm qm /\ seg m pm qm l2 p' q'.
Proof.
  induction l1; intros; simpl.
  - split.
    + intros H; exists p, q; auto.
    + intros (pm & qm & (-> & ->) & H); auto.
  - split.
    + intros (-> & Hc & Hp & H). apply IHl1 in H. destruct H as (pm & qm & H1 & H2).
      exists pm, qm; auto.
    + intros (pm & qm & (-> & Hc & Hp & H1) & H2). repeat split; auto.
      apply IHl1. eauto.
Qed.

Lemma seg_frame : forall m m' l p q p' q',
  (forall i, In i l -> e_next (m' i) = e_next (m i) /\ e_prev (m' i) = e_prev (m i)) ->
  seg m p q l p' q' -> seg m' p q l p' q'.
Proof.
  induction l; intros p q p' q' F H; simpl in *; auto.
  destruct H as (-> & Hc & Hp & H).
  destruct (F a (or_introl eq_refl)) as (Fn & Fp).
  repeat split; auto; try congruence.
  rewrite Fn. apply IHl; auto.
Qed.

Lemma seg_lt : forall m l p q p' q' i, seg m p q l p' q' -> In i l -> i < cap.
Proof.
  induction l; intros; simpl in *; [tauto|].
  destruct H as (-> & Hc & Hp & H). destruct H0 as [->|]; eauto.
Qed.

Lemma last_cons : forall (l : list nat) a p, last (a :: l) p = last l a.
Proof.
  induction l as [|b l IH]; intros; [reflexivity|].
  change (last (a :: b :: l) p) with (last (b :: l) p).
  rewrite IH. symmetry. apply IH.
Qed.

Lemma seg_last : forall m l p q p' q', seg m p q l p' q' -> p' = last l p.
Proof.
  induction l; intros.
  - destruct H; auto.
  - destruct H as (-> & Hc & Hp & H). apply IHl in H.
    rewrite last_cons. auto.
Qed.

Lemma seg_hd : forall m l p q p' q', seg m p q l p' q' -> q = hd q' l.
Proof. destruct l; simpl; intuition. Qed.

Lemma is_linked_loop_spec : forall m ix l fuel p q p' acc,
  seg m p q l p' cap -> length l <= fuel ->
  is_linked_loop fuel cap m q ix acc = Ok (acc || existsb (Nat.eqb ix) l).
Proof.
  induction l; intros fuel p q p' acc H L; simpl in *.
  - destruct H as (-> & ->). rewrite orb_false_r.
    destruct fuel; simpl; rewrite Nat.ltb_irrefl; reflexivity.
  - destruct H as (-> & Hc & Hp & H).
    destruct fuel; [lia|]. simpl. apply Nat.ltb_lt in Hc. rewrite Hc.
    erewrite IHl by (eauto; lia). f_equal.
    rewrite (Nat.eqb_sym ix a).
    destruct (Nat.eqb a ix), acc; simpl; auto.
Qed.

Lemma NoDup_lt_length : forall l n, NoDup l -> (forall i, In i l -> i < n) -> length l <= n.
Proof.
  intros l n ND LT.
  assert (H : incl l (seq 0 n)).
  { intros i Hi. apply in_seq. apply LT in Hi. lia. }
  apply NoDup_incl_length in H; auto. rewrite seq_length in H. auto.
Qed.

Lemma is_linked_spec : forall m q l ix,
  dl m q l -> NoDup l -> ix < cap ->
  is_linked cap m q ix = Ok (existsb (Nat.eqb ix) l).
Proof.
  intros m q l ix (p' & H) ND Hix. unfold is_linked.
  apply Nat.ltb_lt in Hix. rewrite Hix.
  erewrite is_linked_loop_spec; [reflexivity|eauto|].
  apply NoDup_lt_length; auto. intros; eapply seg_lt; eauto.
Qed.

Lemma existsb_eqb_in : forall ix l, existsb (Nat.eqb ix) l = true <-> In ix l.
Proof.
  intros. rewrite existsb_exists. split.
  - intros (x & Hx & E). apply Nat.eqb_eq in E. congruence.
  - intros H. exists ix. split; auto. apply Nat.eqb_refl.
Qed.
Lemma existsb_eqb_notin : forall ix l, existsb (Nat.eqb ix) l = false <-> ~ In ix l.
Proof.
  intros. rewrite <- existsb_eqb_in. destruct (existsb (Nat.eqb ix) l); intuition congruence.
Qed.

(** Same contents apart from the link fields. *)
Definition same_data (m m' : mem) : Prop :=
  forall i, e_name (m' i) = e_name (m i) /\ e_inuse (m' i) = e_inuse (m i) /\
    e_when (m' i) = e_when (m i) /\ e_cb (m' i) = e_cb (m i) /\
    e_arg (m' i) = e_arg (m i) /\ e_gen (m' i) = e_gen (m i) /\ e_due (m' i) = e_due (m i).

Definition same_off (l : list nat) (m m' : mem) : Prop :=
  forall i, ~ In i l -> m' i = m i.

Lemma same_data_refl : forall m, same_data m m.
Proof. intros m i; repeat split. Qed.

Lemma same_data_upd_prev : forall m i p, same_data m (upd m i (set_prev (m i) p)).
Proof. intros m i p j. unfold upd. destruct (Nat.eqb_spec j i); subst; simpl; repeat split. Qed.
Lemma same_data_upd_next : forall m i p, same_data m (upd m i (set_next (m i) p)).
Proof. intros m i p j. unfold upd. destruct (Nat.eqb_spec j i); subst; simpl; repeat split. Qed.
Lemma same_data_trans : forall a b c, same_data a b -> same_data b c -> same_data a c.
Proof.
  intros a b c H1 H2 i. specialize (H1 i). specialize (H2 i).
  decompose [and] H1; decompose [and] H2. repeat split; congruence.
Qed.

Lemma dl_frame : forall m m' q l,
  (forall i, In i l -> m' i = m i) -> dl m q l -> dl m' q l.
Proof.
  intros m m' q l F (p' & H). exists p'. eapply seg_frame; [|exact H].
  intros i Hi. rewrite F; auto.
Qed.

Lemma dl_frame' : forall m m' q l,
  (forall i, In i l -> e_next (m' i) = e_next (m i) /\ e_prev (m' i) = e_prev (m i)) ->
  dl m q l -> dl m' q l.
Proof. intros m m' q l F (p' & H). exists p'. eapply seg_frame; [exact F|exact H]. Qed.

Lemma dl_lt : forall m q l i, dl m q l -> In i l -> i < cap.
Proof. intros m q l i (p' & H); eapply seg_lt; eauto. Qed.

Lemma dl_hd : forall m q l, dl m q l -> q = hd cap l.
Proof. intros m q l (p' & H); eapply seg_hd; eauto. Qed.

Lemma dl_le : forall m q l, dl m q l -> q <= cap.
Proof.
  intros m q l H. pose proof (dl_hd _ _ _ H). destruct l; simpl in *; subst; auto.
  apply Nat.lt_le_incl. eapply dl_lt; eauto. left; auto.
Qed.

Lemma snoc_cases : forall (l : list nat), l = [] \/ exists l' x, l = l' ++ [x].
Proof.
  intros. destruct l; [left; auto|right].
  destruct (@exists_last _ (n :: l)) as (l' & x & E); [discriminate|]. eauto.
Qed.

(** Removing an element of the list. *)
Lemma unlink_spec : forall m q l1 ix l2,
  dl m q (l1 ++ ix :: l2) -> NoDup (l1 ++ ix :: l2) ->
  exists m', unlink cap m q ix = Ok (m', hd cap (l1 ++ l2)) /\
    dl m' (hd cap (l1 ++ l2)) (l1 ++ l2) /\ same_data m m' /\
    same_off (l1 ++ l2) m m'.
Proof.
  intros m q l1 ix l2 D ND.
  assert (Hix : ix < cap).
  { eapply dl_lt; eauto. apply in_app_iff; right; left; auto. }
  unfold unlink. pose proof Hix as Hb. apply Nat.ltb_lt in Hb. rewrite Hb.
  rewrite (is_linked_spec _ _ _ _ D ND Hix).
  assert (E : existsb (Nat.eqb ix) (l1 ++ ix :: l2) = true).
  { apply existsb_eqb_in. apply in_app_iff; right; left; auto. }
  rewrite E. simpl obind. cbv zeta.
  destruct D as (p' & D). apply seg_app in D. destruct D as (pm & qm & D1 & D2).
  simpl in D2. destruct D2 as (-> & _ & Hprev & D2).
  pose proof (seg_last _ _ _ _ _ _ D1) as Hpm.
  pose proof (seg_hd _ _ _ _ _ _ D1) as Hq.
  pose proof (seg_hd _ _ _ _ _ _ D2) as Hnx.
  rewrite Hprev. clear Hprev.
  apply NoDup_remove in ND. destruct ND as (ND & NI).
  set (nx := e_next (m ix)) in *. clearbody nx.
  assert (Nix1 : ~ In ix l1) by (intro; apply NI; apply in_app_iff; auto).
  assert (Nix2 : ~ In ix l2) by (intro; apply NI; apply in_app_iff; auto).
  (* the table after fixing the successor *)
  set (m1 := if Nat.ltb nx cap then upd m nx (set_prev (m nx) pm) else m).
  assert (S2 : seg m1 pm nx l2 (last l2 pm) cap).
  { destruct l2 as [|j l2'].
    - simpl in *. destruct D2 as (_ & ->). split; auto.
    - simpl in D2. destruct D2 as (Ej & Hj & Hpj & D2). subst j.
      assert (Hlt := Hj). apply Nat.ltb_lt in Hlt. unfold m1. rewrite Hlt.
      simpl seg. rewrite !upd_same. simpl. repeat split; auto.
      pose proof (seg_last _ _ _ _ _ _ D2) as Hl.
      pose proof (NoDup_remove_2 _ _ _ ND) as Hnj.
      assert (Hlast : last (nx :: l2') pm = p').
      { rewrite last_cons. auto. }
      simpl in Hlast. rewrite Hlast.
      eapply seg_frame; [|exact D2]. intros i Hi.
      rewrite upd_other; auto. intros ->. apply Hnj. apply in_app_iff; auto. }
  assert (S1 : forall i, In i l1 -> m1 i = m i).
  { intros i Hi. unfold m1. destruct (Nat.ltb_spec nx cap); auto.
    apply upd_other. intros ->. destruct l2 as [|j l2']; simpl in *.
    - lia.
    - rewrite Hnx in *. apply NoDup_remove_2 in ND. apply ND. apply in_app_iff; auto. }
  assert (O1 : same_off (l1 ++ l2) m m1).
  { intros i Hi. unfold m1. destruct (Nat.ltb_spec nx cap); auto.
    apply upd_other. intros ->. apply Hi. apply in_app_iff. right.
    destruct l2; simpl in *; [lia|]. left; congruence. }
  assert (A1 : same_data m m1).
  { unfold m1. destruct (Nat.ltb nx cap); [apply same_data_upd_prev|apply same_data_refl]. }
  destruct (snoc_cases l1) as [->|(l1' & x & ->)].
  - simpl in *. destruct D1 as (<- & <-). rewrite Nat.eqb_refl.
    rewrite Nat.ltb_irrefl. exists m1. rewrite Hnx at 1. rewrite <- Hnx.
    split; [reflexivity|]. split; [|auto].
    rewrite Hnx in S2. rewrite Hnx. exists (last l2 cap). exact S2.
  - assert (Hx : pm = x).
    { rewrite Hpm. rewrite last_last. reflexivity. }
    clear Hpm. subst pm. apply seg_app in D1. destruct D1 as (pm & qm & D1 & D1x).
    simpl in D1x. destruct D1x as (-> & Hx' & Hpx & Hd). destruct Hd as (_ & Hnxx).
    destruct (Nat.eqb_spec q ix) as [Eq|Nq].
    { exfalso. apply Nix1. rewrite <- Eq, Hq. destruct l1'; simpl; auto. }
    assert (Hxl := Hx'). apply Nat.ltb_lt in Hxl. rewrite Hxl.
    set (m2 := upd m1 x (set_next (m1 x) nx)).
    assert (Hhd : q = hd cap ((l1' ++ [x]) ++ l2)).
    { rewrite Hq. destruct l1'; reflexivity. }
    exists m2. rewrite <- Hhd. split; [reflexivity|]. split; [|split].
    + exists (last l2 x). apply seg_app. exists x, nx. split.
      * apply seg_app. exists pm, x. split.
        -- eapply seg_frame; [|exact D1]. intros i Hi. unfold m2.
           assert (i <> x).
           { intros ->. rewrite <- app_assoc in ND. simpl in ND.
             apply NoDup_remove_2 in ND. apply ND. apply in_app_iff; auto. }
           rewrite upd_other by auto. rewrite S1; auto. apply in_app_iff; auto.
        -- simpl. unfold m2. rewrite upd_same. simpl. repeat split; auto.
           rewrite S1; auto. apply in_app_iff; right; left; auto.
      * eapply seg_frame; [|exact S2]. intros i Hi. unfold m2.
        rewrite upd_other; auto. intros ->.
        rewrite <- app_assoc in ND. simpl in ND.
        apply NoDup_remove_2 in ND. apply ND. apply in_app_iff; auto.
    + eapply same_data_trans; [exact A1|]. unfold m2. apply same_data_upd_next.
    + intros i Hi. unfold m2. rewrite upd_other.
      * apply O1; auto.
      * intros ->. apply Hi. apply in_app_iff. left. apply in_app_iff. right; left; auto.
Qed.

Lemma unlink_head : forall m ix l,
  dl m ix (ix :: l) -> NoDup (ix :: l) ->
  exists m', unlink cap m ix ix = Ok (m', hd cap l) /\
    dl m' (hd cap l) l /\ same_data m m' /\ same_off l m m'.
Proof. intros m ix l D ND. apply (unlink_spec m ix [] ix l D ND). Qed.

(** Inserting at the head. *)
Lemma link_head_spec : forall m q l ix,
  dl m q l -> NoDup l -> ix < cap -> ~ In ix l ->
  exists m', link_before cap m q ix q = Ok (m', ix) /\
    dl m' ix (ix :: l) /\ same_data m m' /\ same_off (ix :: l) m m'.
Proof.
  intros m q l ix D ND Hix NI. unfold link_before.
  assert (Hb := Hix). apply Nat.ltb_lt in Hb. rewrite Hb.
  rewrite (is_linked_spec _ _ _ _ D ND Hix).
  assert (E : existsb (Nat.eqb ix) l = false) by (apply existsb_eqb_notin; auto).
  rewrite E. simpl obind. cbv zeta.
  pose proof (dl_hd _ _ _ D) as Hq. destruct D as (p' & D).
  destruct l as [|j l]; simpl in Hq.
  - subst q. rewrite Nat.ltb_irrefl. simpl negb. cbv iota.
    eexists. split; [reflexivity|]. split; [|split].
    + exists ix. simpl. rewrite upd_same. simpl. repeat split; auto.
    + intros i. unfold upd. destruct (Nat.eqb_spec i ix); subst; simpl; repeat split.
    + intros i Hi. apply upd_other. intros ->; apply Hi; left; auto.
  - subst q. simpl in D. destruct D as (_ & Hj & Hpj & D).
    assert (Hjl := Hj). apply Nat.ltb_lt in Hjl. rewrite Hjl. simpl negb. cbv iota.
    rewrite Nat.eqb_refl. rewrite Hpj. rewrite Nat.ltb_irrefl.
    assert (Nj : j <> ix) by (intros ->; apply NI; left; auto).
    inversion ND as [|? ? Nj2 ND2]; subst.
    eexists. split; [reflexivity|]. split; [|split].
    + exists p'. simpl. rewrite upd_same. simpl.
      repeat split; auto.
      * rewrite upd_other by auto. rewrite upd_same. reflexivity.
      * rewrite (upd_other _ _ ix _ j) by auto. rewrite upd_same. simpl.
        eapply seg_frame; [|exact D]. intros i Hi.
        assert (i <> ix) by (intros ->; apply NI; right; auto).
        assert (i <> j) by (intros ->; auto).
        rewrite !upd_other by auto. auto.
    + intros i. unfold upd. destruct (Nat.eqb_spec i ix); subst; simpl.
      * destruct (Nat.eqb_spec ix j); try congruence. repeat split.
      * destruct (Nat.eqb_spec i j); subst; simpl; repeat split.
    + intros i Hi. rewrite !upd_other; auto.
      * intros ->; apply Hi; right; left; auto.
      * intros ->; apply Hi; left; auto.
Qed.

Lemma link_empty_spec : forall m ix,
  ix < cap -> 
  exists m', link_before cap m cap ix cap = Ok (m', ix) /\
    dl m' ix [ix] /\ same_data m m' /\ same_off [ix] m m'.
Proof.
  intros m ix H. apply (link_head_spec m cap [] ix); auto.
  - exists cap. simpl. auto.
  - constructor.
Qed.

(** Inserting after a given element. *)
Lemma link_after_spec : forall m q l1 pos l2 ix,
  dl m q (l1 ++ pos :: l2) -> NoDup (l1 ++ pos :: l2) -> ix < cap ->
  ~ In ix (l1 ++ pos :: l2) ->
  exists m', link_after cap m q ix pos = Ok (m', q) /\
    dl m' q (l1 ++ pos :: ix :: l2) /\ same_data m m' /\
    same_off (l1 ++ pos :: ix :: l2) m m'.
Proof.
  intros m q l1 pos l2 ix D ND Hix NI. unfold link_after.
  assert (Hb := Hix). apply Nat.ltb_lt in Hb. rewrite Hb.
  rewrite (is_linked_spec _ _ _ _ D ND Hix).
  assert (E : existsb (Nat.eqb ix) (l1 ++ pos :: l2) = false)
    by (apply existsb_eqb_notin; auto).
  rewrite E. simpl obind. cbv zeta.
  assert (Hpos : pos < cap).
  { eapply dl_lt; eauto. apply in_app_iff; right; left; auto. }
  assert (Hpl := Hpos). apply Nat.ltb_lt in Hpl. rewrite Hpl. simpl negb. cbv iota.
  assert (Hq : q < cap).
  { pose proof (dl_hd _ _ _ D) as Hq. rewrite Hq. destruct l1; simpl; auto.
    eapply dl_lt; eauto. left; auto. }
  assert (Hql := Hq). apply Nat.ltb_lt in Hql. rewrite Hql. simpl negb. cbv iota.
  destruct D as (p' & D). apply seg_app in D. destruct D as (pm & qm & D1 & D2).
  simpl in D2. destruct D2 as (-> & _ & Hpp & D2).
  pose proof (seg_hd _ _ _ _ _ _ D2) as Hnx.
  set (nx := e_next (m pos)) in *. clearbody nx.
  apply NoDup_remove in ND. destruct ND as (ND & NP).
  assert (Npos : pos <> ix) by (intros ->; apply NI; apply in_app_iff; right; left; auto).
  assert (N1 : ~ In ix l1) by (intro; apply NI; apply in_app_iff; auto).
  assert (N2 : ~ In ix l2) by (intro; apply NI; apply in_app_iff; right; right; auto).
  assert (P1 : ~ In pos l1) by (intro; apply NP; apply in_app_iff; auto).
  assert (P2 : ~ In pos l2) by (intro; apply NP; apply in_app_iff; auto).
  set (m1 := if Nat.ltb nx cap then upd m nx (set_prev (m nx) ix) else m).
  assert (Hin : nx < cap -> In nx l2).
  { intro. rewrite Hnx in *. destruct l2; simpl in *; [lia|auto]. }
  assert (M1pos : m1 pos = m pos).
  { unfold m1. destruct (Nat.ltb_spec nx cap); auto. apply upd_other.
    intros ->. auto. }
  assert (M1ix : m1 ix = m ix).
  { unfold m1. destruct (Nat.ltb_spec nx cap); auto. apply upd_other.
    intros ->. auto. }
  assert (S2 : seg m1 ix nx l2 (last l2 ix) cap).
  { destruct l2 as [|j l2'].
    - simpl in *. destruct D2 as (_ & ->). split; auto.
    - simpl in D2. destruct D2 as (Ej & Hj & Hpj & D2).
      subst j.
      assert (Hlt := Hj). apply Nat.ltb_lt in Hlt. unfold m1. rewrite Hlt.
      simpl seg. rewrite !upd_same. simpl. repeat split; auto.
      pose proof (seg_last _ _ _ _ _ _ D2) as Hl.
      pose proof (NoDup_remove_2 _ _ _ ND) as Hnj.
      assert (Hlast : last (nx :: l2') ix = p').
      { rewrite last_cons. auto. }
      simpl in Hlast. rewrite Hlast.
      eapply seg_frame; [|exact D2]. intros i Hi.
      rewrite upd_other; auto. intros ->. apply Hnj. apply in_app_iff; auto. }
  set (m2 := upd m1 pos (set_next (m1 pos) ix)).
  eexists. split; [reflexivity|]. split; [|split].
  - exists (last l2 ix). apply seg_app. exists pm, pos. split.
    + eapply seg_frame; [|exact D1]. intros i Hi.
      assert (i <> ix) by (intros ->; auto).
      assert (i <> pos) by (intros ->; auto).
      rewrite upd_other by auto. unfold m2. rewrite upd_other by auto.
      unfold m1. destruct (Nat.ltb_spec nx cap); auto.
      rewrite upd_other; auto. intros ->.
      apply Hin in H1. clear - ND Hi H1.
      induction l1; simpl in *; [tauto|]. inversion ND; subst.
      destruct Hi as [->|Hi]; auto. apply H2. apply in_app_iff; auto.
    + simpl. rewrite (upd_other _ _ ix _ pos) by auto. unfold m2.
      rewrite upd_same. simpl. rewrite M1pos. repeat split; auto.
      * rewrite upd_same. reflexivity.
      * rewrite upd_same. simpl. eapply seg_frame; [|exact S2]. intros i Hi.
        assert (i <> ix) by (intros ->; auto).
        assert (i <> pos) by (intros ->; auto).
        rewrite !upd_other by auto. auto.
  - eapply same_data_trans with m1.
    { unfold m1. destruct (Nat.ltb nx cap); [apply same_data_upd_prev|apply same_data_refl]. }
    eapply same_data_trans with m2; [apply same_data_upd_next|].
    intros i. unfold upd. destruct (Nat.eqb_spec i ix); subst; simpl; repeat split.
  - intros i Hi. rewrite upd_other.
    2:{ intros ->; apply Hi; apply in_app_iff; right; right; left; auto. }
    unfold m2. rewrite upd_other.
    2:{ intros ->; apply Hi; apply in_app_iff; right; left; auto. }
    unfold m1. destruct (Nat.ltb_spec nx cap); auto. apply upd_other. intros ->.
    apply Hi. apply in_app_iff; right; right; right; auto.
Qed.

End Seg.
