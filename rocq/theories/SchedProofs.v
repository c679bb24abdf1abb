From Coq Require Import List ZArith Arith Bool Lia Sorted Permutation.
From Verif Require Import Base SchedModel SchedLists SchedSpec.
Import ListNotations.
Local Open Scope Z_scope.
Set Bullet Behavior "Strict Subproofs".

(** * Delay sanitising *)

Lemma sanitize_ok : forall w c h,
  0 <= w < 4294967296 -> 0 < c <= 2000000000 ->
  exists k, 1 <= k /\
    sanitize_delay w c h = Ok (k * c - (if h then c / 2 else 0)) /\
    (w <= max_delay -> c + c / 2 < w -> k = (w + c / 2) / c) /\
    ((max_delay < w \/ w <= c + c / 2) -> k = 1) /\
    k * c <= max_delay + c.
Proof.
  intros w c h Hw Hc. unfold sanitize_delay, max_delay in *.
  destruct (Z.leb_spec c 0); [lia|].
  assert (Hc2 : 0 <= c / 2 <= c) by (split; [apply Z.div_pos; lia|apply Z.div_le_upper_bound; lia]).
  assert (Hc3 : 2 * (c / 2) <= c) by (apply Z.mul_div_le; lia).
  rewrite (u32_id (c + c / 2)) by lia.
  set (w' := if 100000000 <? w then 0 else w).
  assert (Hw' : 0 <= w' <= 100000000 /\ (100000000 < w -> w' = 0) /\ (w <= 100000000 -> w' = w)).
  { unfold w'. destruct (Z.ltb_spec 100000000 w); lia. }
  destruct (Z.ltb_spec (c + c / 2) w') as [G|G].
  - rewrite (u32_id (w' + c / 2)) by lia.
    set (k := (w' + c / 2) / c).
    assert (Hk : 1 <= k) by (apply Z.div_le_lower_bound; lia).
    assert (Hkc : c * k <= w' + c / 2) by (apply Z.mul_div_le; lia).
    destruct (Z.ltb_spec k 1); [lia|].
    destruct (Z.leb_spec 2147483648 k); [nia|].
    exists k. split; [lia|]. rewrite (u32_id (k * c)) by nia.
    split; [|split; [|split]].
    + destruct h; rewrite ?u32_id by nia; f_equal; lia.
    + intros. unfold k. replace w with w' by lia. reflexivity.
    + intros [?|?]; lia.
    + lia.
  - destruct (Z.ltb_spec 1 1); [lia|]. destruct (Z.leb_spec 2147483648 1); [lia|].
    exists 1. split; [lia|]. rewrite (u32_id (1 * c)) by lia.
    split; [|split; [|split]].
    + destruct h; rewrite ?u32_id by lia; f_equal; lia.
    + lia.
    + lia.
    + lia.
Qed.

Lemma sanitize_range : forall w c,
  0 <= w < 4294967296 -> 0 < c <= 2000000000 ->
  exists d, sanitize_delay w c true = Ok d /\ 1 <= d <= max_delay + c.
Proof.
  intros w c Hw Hc. destruct (sanitize_ok w c true Hw Hc) as (k & K1 & K2 & _ & _ & K3).
  eexists. split; [exact K2|].
  assert (0 <= c / 2 < c \/ c = 1).
  { destruct (Z.eq_dec c 1); [auto|left]. split; [apply Z.div_pos; lia|apply Z.div_lt; lia]. }
  assert (c = 1 -> c / 2 = 0) by (intros ->; reflexivity). nia.
Qed.

(** * Insertion position *)

Section Pos.
Variable cap : nat.

Lemma find_pos_spec : forall m w l fuel prev q p p',
  seg cap m p q l p' cap -> (length l <= fuel)%nat ->
  exists l1 l2, l = l1 ++ l2 /\
    find_pos fuel cap m w prev q = Ok (last l1 prev) /\
    (forall i, In i l1 -> 0 < s32 (u32 (w - e_when (m i)))) /\
    (forall i l2', l2 = i :: l2' -> s32 (u32 (w - e_when (m i))) <= 0).
Proof.
  induction l; intros fuel prev q p p' H L; simpl in *.
  - destruct H as (_ & ->). exists [], []. simpl.
    split; [auto|]. split.
    + destruct fuel; simpl; rewrite Nat.ltb_irrefl; reflexivity.
    + split; [tauto|discriminate].
  - destruct H as (-> & Hc & Hp & H). destruct fuel; [lia|].
    apply Nat.ltb_lt in Hc. simpl. rewrite Hc. simpl.
    destruct (Z.ltb_spec 0 (s32 (u32 (w - e_when (m a))))) as [G|G].
    + destruct (IHl fuel a (e_next (m a)) a p' H ltac:(lia)) as (l1 & l2 & E & F & A & B).
      exists (a :: l1), l2. subst l. split; [reflexivity|]. split.
      * rewrite F. rewrite last_cons. reflexivity.
      * split; [|exact B]. intros i [->|Hi]; auto.
    + exists [], (a :: l). simpl. split; [auto|]. split; [reflexivity|].
      split; [tauto|]. intros i l2' E. inversion E; subst. auto.
Qed.

Lemma add_link_spec : forall m first busy ix,
  dl cap m first busy -> NoDup busy -> (ix < cap)%nat -> ~ In ix busy ->
  exists m' first' l1 l2, busy = l1 ++ l2 /\
    add_link cap m first ix = Ok (m', first') /\
    dl cap m' first' (l1 ++ ix :: l2) /\ same_data m m' /\
    same_off (l1 ++ ix :: l2) m m' /\
    (forall i, In i l1 -> 0 < s32 (u32 (e_when (m ix) - e_when (m i)))) /\
    (forall i l2', l2 = i :: l2' -> s32 (u32 (e_when (m ix) - e_when (m i))) <= 0).
Proof.
  intros m first busy ix D ND Hix NI. unfold add_link.
  pose proof (dl_hd _ _ _ _ D) as Hf.
  destruct busy as [|b busy]; simpl in Hf.
  - subst first. rewrite Nat.ltb_irrefl. simpl negb. cbv iota.
    destruct (link_empty_spec cap m ix Hix) as (m' & E & D' & S & O).
    exists m', ix, [], []. simpl. do 5 (split; [auto|]). split; [tauto|discriminate].
  - subst first.
    assert (Hb : (b < cap)%nat) by (eapply dl_lt; eauto; left; auto).
    assert (Hbl := Hb). apply Nat.ltb_lt in Hbl. rewrite Hbl. simpl negb. cbv iota.
    destruct (Z.leb_spec (s32 (u32 (e_when (m ix) - e_when (m b)))) 0) as [G|G].
    + destruct (link_head_spec cap m b (b :: busy) ix D ND Hix NI) as (m' & E & D' & S & O).
      exists m', ix, [], (b :: busy). simpl. do 5 (split; [auto|]). split; [tauto|].
      intros i l2' Ei. inversion Ei; subst. auto.
    + assert (D0 := D). destruct D as (p' & D). simpl in D. destruct D as (_ & _ & Hp & D).
      assert (Len : (length busy <= cap)%nat).
      { assert (length (b :: busy) <= cap)%nat.
        { apply NoDup_lt_length; auto. intros; eapply dl_lt; eauto. }
        simpl in *; lia. }
      destruct (find_pos_spec m (e_when (m ix)) busy cap b (e_next (m b)) b p' D Len)
        as (l1 & l2 & E & F & A & B).
      rewrite F. simpl obind.
      assert (Hs : exists la, b :: l1 = la ++ [last l1 b]).
      { destruct (snoc_cases (b :: l1)) as [?|(la & x & Ex)]; [discriminate|].
        exists la. rewrite Ex. f_equal. f_equal. rewrite <- (last_cons l1 b b).
        rewrite Ex. rewrite last_last. reflexivity. }
      destruct Hs as (la & Hla).
      assert (Eb : b :: busy = la ++ last l1 b :: l2).
      { rewrite E. change (b :: l1 ++ l2) with ((b :: l1) ++ l2). rewrite Hla.
        rewrite <- app_assoc. reflexivity. }
      rewrite Eb in D0, ND, NI.
      destruct (link_after_spec cap m b la (last l1 b) l2 ix D0 ND Hix NI)
        as (m' & E' & D' & S & O).
      exists m', b, (b :: l1), l2. split; [|split; [exact E'|]].
      * rewrite E. reflexivity.
      * assert (R : (b :: l1) ++ ix :: l2 = la ++ last l1 b :: ix :: l2).
        { rewrite Hla. rewrite <- app_assoc. reflexivity. }
        rewrite R. do 3 (split; [auto|]). split; [|exact B].
        intros i [<-|Hi]; auto.
Qed.

(** pf_scheduler_init builds the full free list. *)
Lemma init_loop_spec : forall n m,
  (n <= cap)%nat ->
  forall l q, dl cap m q l -> NoDup l -> (forall i, In i l -> (n <= i)%nat) ->
  exists m', init_loop cap n m q = Ok (m', hd cap (seq 0 n ++ l)) /\
    dl cap m' (hd cap (seq 0 n ++ l)) (seq 0 n ++ l) /\ same_data m m'.
Proof.
  induction n; intros m Hn l q D ND LE.
  - simpl. pose proof (dl_hd _ _ _ _ D). subst q. eexists. split; [reflexivity|].
    split; auto. apply same_data_refl.
  - cbn [init_loop].
    destruct (link_head_spec cap m q l n D ND ltac:(lia)) as (m1 & E & D1 & S1 & O1).
    { intro Hi. apply LE in Hi. lia. }
    rewrite E. cbn [obind fst snd].
    destruct (IHn m1 ltac:(lia) (n :: l) n D1) as (m' & E' & D' & S').
    + constructor; auto. intro Hi. apply LE in Hi. lia.
    + intros i [<-|Hi]; auto. apply LE in Hi. lia.
    + assert (R : seq 0 (S n) ++ l = seq 0 n ++ n :: l).
      { rewrite seq_S. rewrite <- app_assoc. reflexivity. }
      rewrite R. eexists. split; [exact E'|]. split; auto.
      eapply same_data_trans; eauto.
Qed.
End Pos.
