(** The alarm queues are first-in first-out queues with room for [cap]. *)

From Coq Require Import List ZArith Arith Bool Lia Permutation.
From Verif Require Import Base BlockModel AlarmModel AlarmSpec.
Import ListNotations.
Set Implicit Arguments.
Open Scope nat_scope.

Section Ring.
Variable A : Type.
Variable cap : nat.
Hypothesis cap_pos : 0 < cap.

Lemma mod_cases : forall a, a < 2 * cap -> a mod cap = if a <? cap then a else a - cap.
Proof.
  intros a Ha. destruct (Nat.ltb_spec a cap).
  - apply Nat.mod_small; auto.
  - replace a with ((a - cap) + 1 * cap) at 1 by lia. rewrite Nat.mod_add by lia.
    apply Nat.mod_small. lia.
Qed.

Arguments mod_cases : clear implicits.

Lemma holds_new : @holds A cap (mkRing true 0 0 0 (fun _ => None)) [].
Proof.
  unfold holds; cbn. repeat split; auto with arith.
  - rewrite Nat.mod_small; lia.
  - intros i Hi. now destruct (_ mod _).
Qed.

Lemma holds_avail : forall q l, @holds A cap q l -> q_avail q = true.
Proof. now intros q l (H & _). Qed.

Lemma holds_count : forall q l, @holds A cap q l -> q_count q = length l.
Proof. now intros q l (_ & H & _). Qed.

Lemma post_full : forall q l x, @holds A cap q l -> cap <= length l -> ring_post cap x q = (false, q).
Proof.
  intros q l x (H1 & H2 & _) Hl. unfold ring_post. rewrite H1; cbn -[Nat.leb].
  rewrite H2. destruct (Nat.leb_spec cap (length l)); [auto | lia].
Qed.

Lemma post_room : forall q l x, @holds A cap q l -> length l < cap ->
  exists q', ring_post cap x q = (true, q') /\ holds cap q' (l ++ [x]).
Proof.
  intros q l x (H1 & H2 & H3 & H4 & H5 & H6) Hl. unfold ring_post. rewrite H1; cbn -[Nat.leb].
  rewrite H2. destruct (Nat.leb_spec cap (length l)); [lia|]. eexists; split; [reflexivity|].
  unfold holds; cbn -[Nat.leb Nat.modulo]. rewrite app_length; cbn -[Nat.leb Nat.modulo].
  rewrite H5. split; [reflexivity|]. split; [lia|]. split; [lia|]. split; [auto|]. split.
  - rewrite !mod_cases by lia. 
    destruct (Nat.ltb_spec (q_rd q + length l) cap);
    destruct (Nat.ltb_spec (q_rd q + (length l + 1)) cap);
    match goal with |- context[?a <=? ?b] => destruct (Nat.leb_spec a b) end; lia.
  - intros i Hi. rewrite (mod_cases (i + cap - q_rd q)) by lia.
    rewrite mod_cases by lia.
    destruct (Nat.eq_dec i (if q_rd q + length l <? cap then q_rd q + length l
                            else q_rd q + length l - cap)) as [->|Hne].
    + rewrite upd_same. symmetry.
      match goal with |- nth_error _ ?k = _ => replace k with (length l) end.
      * rewrite nth_error_app2, Nat.sub_diag by lia. reflexivity.
      * destruct (Nat.ltb_spec (q_rd q + length l) cap);
        match goal with |- context[?a <? ?b] => destruct (Nat.ltb_spec a b) end; lia.
    + rewrite upd_other by auto. rewrite H6 by auto.
      rewrite (mod_cases (i + cap - q_rd q)) by lia.
      set (k := if i + cap - q_rd q <? cap then i + cap - q_rd q else i + cap - q_rd q - cap).
      assert (k <> length l).
      { unfold k in *. revert Hne.
        destruct (Nat.ltb_spec (q_rd q + length l) cap);
        destruct (Nat.ltb_spec (i + cap - q_rd q) cap); lia. }
      destruct (Nat.lt_ge_cases k (length l)).
      * now rewrite nth_error_app1 by lia.
      * rewrite (proj2 (nth_error_None l k)) by lia.
        symmetry. apply nth_error_None. rewrite app_length; cbn. lia.
Qed.

Lemma fetch_empty : forall q, @holds A cap q [] -> ring_fetch cap q = (None, q).
Proof. intros q (H1 & H2 & _). unfold ring_fetch. rewrite H1, H2. reflexivity. Qed.

Lemma fetch_cons : forall q x l, @holds A cap q (x :: l) ->
  exists q', ring_fetch cap q = (Some x, q') /\ holds cap q' l.
Proof.
  intros q x l (H1 & H2 & H3 & H4 & H5 & H6). unfold ring_fetch. rewrite H1, H2; cbn -[Nat.leb].
  cbn in H3. rewrite (H6 (q_rd q)) by auto.
  replace ((q_rd q + cap - q_rd q) mod cap) with 0
    by (rewrite mod_cases by lia; destruct (Nat.ltb_spec (q_rd q + cap - q_rd q) cap); lia).
  eexists; split; [reflexivity|].
  unfold holds; cbn -[Nat.leb Nat.modulo]. repeat split.
  - lia.
  - lia.
  - destruct (Nat.leb_spec cap (S (q_rd q))); lia.
  - rewrite H5. cbn [length]. rewrite mod_cases by lia.
    destruct (Nat.leb_spec cap (S (q_rd q))).
    + rewrite mod_cases by lia. repeat match goal with |- context[?a <? ?b] => destruct (Nat.ltb_spec a b) end; lia.
    + rewrite mod_cases by lia. repeat match goal with |- context[?a <? ?b] => destruct (Nat.ltb_spec a b) end; lia.
  - intros i Hi.
    set (rd' := if cap <=? S (q_rd q) then 0 else S (q_rd q)).
    assert (Hrd : rd' < cap) by (unfold rd'; destruct (Nat.leb_spec cap (S (q_rd q))); lia).
    destruct (Nat.eq_dec i (q_rd q)) as [->|Hne].
    + rewrite upd_same. symmetry. apply nth_error_None.
      rewrite mod_cases by lia. unfold rd'. destruct (Nat.leb_spec cap (S (q_rd q)));
      match goal with |- context[?a <? ?b] => destruct (Nat.ltb_spec a b) end; lia.
    + rewrite upd_other by auto. rewrite H6 by auto.
      replace ((i + cap - q_rd q) mod cap) with (S ((i + cap - rd') mod cap)); [reflexivity|].
      rewrite !mod_cases by lia. unfold rd'. destruct (Nat.leb_spec cap (S (q_rd q)));
      repeat match goal with |- context[?a <? ?b] => destruct (Nat.ltb_spec a b) end; lia.
Qed.


Definition opt (o : option A) : list A := match o with Some x => [x] | None => [] end.

Lemma flat_nth : forall (l : list A) n, length l <= n ->
  flat_map (fun i => opt (nth_error l i)) (seq 0 n) = l.
Proof.
  intros l n. revert l. induction n as [|n IH]; intros l Hl.
  - destruct l; [reflexivity | cbn in Hl; lia].
  - cbn [seq flat_map]. rewrite <- seq_shift.
    destruct l as [|x l].
    + cbn. rewrite flat_map_concat_map, map_map. clear. induction (seq 0 n); auto.
    + cbn [nth_error opt]. cbn. f_equal. rewrite flat_map_concat_map, map_map, <- flat_map_concat_map.
      apply IH. cbn in Hl; lia.
Qed.

Lemma flat_map_seq : forall (f g : nat -> list A) a b n,
  (forall i, i < n -> f (a + i) = g (b + i)) -> flat_map f (seq a n) = flat_map g (seq b n).
Proof.
  intros f g a b n. revert a b. induction n as [|n IH]; intros a b H; cbn; auto.
  f_equal.
  - specialize (H 0). rewrite !Nat.add_0_r in H. apply H; lia.
  - apply IH. intros i Hi. specialize (H (S i)). rewrite !Nat.add_succ_r in H. cbn. apply H; lia.
Qed.

Lemma holds_items : forall q l, @holds A cap q l -> Permutation (ring_items cap q) l.
Proof.
  intros q l (H1 & H2 & H3 & H4 & H5 & H6). unfold ring_items.
  replace (seq 0 cap) with (seq 0 (q_rd q) ++ seq (q_rd q) (cap - q_rd q))
    by (rewrite <- seq_app; f_equal; lia).
  rewrite flat_map_app.
  eapply perm_trans; [apply Permutation_app_comm|].
  rewrite <- (flat_nth l H3) at 1.
  replace (seq 0 cap) with (seq 0 (cap - q_rd q) ++ seq (0 + (cap - q_rd q)) (q_rd q))
    by (rewrite <- seq_app; f_equal; lia).
  rewrite flat_map_app.
  match goal with |- Permutation ?a ?b => replace a with b; [apply Permutation_refl|] end.
  f_equal; apply flat_map_seq; intros i Hi; rewrite H6 by lia; unfold opt.
  - replace ((q_rd q + i + cap - q_rd q) mod cap) with (0 + i); [reflexivity|].
    rewrite mod_cases by lia. destruct (Nat.ltb_spec (q_rd q + i + cap - q_rd q) cap); lia.
  - replace ((0 + i + cap - q_rd q) mod cap) with (0 + (cap - q_rd q) + i); [reflexivity|].
    rewrite mod_cases by lia. destruct (Nat.ltb_spec (0 + i + cap - q_rd q) cap); lia.
Qed.
End Ring.
