(** Theorems about the diagnosis store: C34, C35, C53, C54, C55. *)

From Coq Require Import List Arith Bool ZArith Lia Permutation.
From Verif Require Import Base DiagModel DiagLists DiagSpec DiagInv DiagSteps.
Import ListNotations.
Set Implicit Arguments.
Open Scope nat_scope.

Section Props.
Variable max : nat.
Variable maxm : Z.
Variable n : nat.
Hypothesis max_pos : 0 < max.

Notation reach := (dreach max maxm n proper).
Notation dstep := (dstep max maxm).
Notation stored := (stored max).

(** ** From stored lists to the invariant *)
Lemma stored_some : forall s Ls F k l, dinv max s Ls F -> stored s k = Some l ->
  exists c, find_cell k (cells s) = Some c /\ l = contents s Ls c.
Proof.
  intros s Ls F k l I H. destruct (find_cell k (cells s)) as [c|] eqn:Fc.
  - exists c. split; auto. rewrite (@stored_inv _ _ _ _ _ _ I Fc) in H. now injection H as <-.
  - unfold DiagSpec.stored in H. rewrite Fc in H. discriminate.
Qed.

Lemma effect_stored : forall s Ls F s' Ls' F' c k new, dinv max s Ls F -> dinv max s' Ls' F' ->
  effect s Ls s' Ls' c new -> find_cell k (cells s) = Some c ->
  stored s' k = Some new /\ forall k', k' <> k -> stored s' k' = stored s k'.
Proof.
  intros s Ls F s' Ls' F' c k new I I' Ef Fc. pose proof (e_cells Ef) as Sm.
  assert (Fc' : find_cell k (cells s') = Some c) by (rewrite (same_find k Sm); exact Fc).
  split.
  - rewrite (@stored_inv _ _ _ _ _ _ I' Fc'). f_equal. exact (e_new Ef).
  - intros k' D. destruct (find_cell k' (cells s)) as [c'|] eqn:E.
    + assert (E' : find_cell k' (cells s') = Some c') by (rewrite (same_find k' Sm); exact E).
      rewrite (@stored_inv _ _ _ _ _ _ I' E'), (@stored_inv _ _ _ _ _ _ I E). f_equal.
      destruct (find_cell_some _ _ E) as (Hc & _ & K' & _).
      destruct (find_cell_some _ _ Fc) as (_ & _ & K & _).
      apply (e_old Ef); auto. intros ->. congruence.
    + unfold DiagSpec.stored. rewrite (same_find k' Sm), E. reflexivity.
Qed.

(** ** C34 *)

(** Every call returns: the lists never get a loop. *)
Theorem C34_calls_return : forall s x, reach s -> proper x -> dstep x s <> None.
Proof.
  intros s x R P. destruct (reach_inv max_pos R) as (Ls & F & I & _).
  destruct (@step_inv max maxm s Ls F x I P) as (s' & r & os & Ls' & F' & -> & _). discriminate.
Qed.

(** The diagnoses of a sub-slot have different keys. *)
Theorem C34_keys_unique : forall s k l, reach s -> stored s k = Some l -> NoDup (map key_of l).
Proof.
  intros s k l R H. destruct (reach_inv max_pos R) as (Ls & F & I & _).
  destruct (@stored_some _ _ _ _ _ I H) as (c & Fc & ->). apply (i_uniq I).
  apply (find_cell_some _ _ Fc).
Qed.

(** Adding: the diagnosis is stored in place of one with the same key, if
    there is one, and all else is unchanged. *)
Theorem C34_add : forall s l src bits sev err ext addv qual usi len data ok1 ok2,
  reach s ->
  let x := CAdd src bits sev err ext addv qual usi len data ok1 ok2 in
  proper x -> acceptable maxm src sev err ext addv qual usi len data ->
  stored s (s_key src) = Some l ->
  In (named src err ext usi) (map key_of l) \/ used max s < max ->
  exists s' r os, dstep x s = Some (s', r, os) /\
    stored s' (s_key src) =
      Some (described src bits sev err ext addv qual usi len data ::
            filter (fun d => negb (has_key (named src err ext usi) d)) l) /\
    forall k, k <> s_key src -> stored s' k = stored s k.
Proof.
  intros s l src bits sev err ext addv qual usi len data ok1 ok2 R x P A H Rm.
  destruct (reach_inv max_pos R) as (Ls & F & I & _).
  destruct (@stored_some _ _ _ _ _ I H) as (c & Fc & ->).
  destruct (@add_step max maxm s Ls F c src bits sev err ext addv qual usi len data ok1 ok2 I Fc P A) as [B _].
  destruct B as (s' & Ls' & F' & y & Rr & old & Q & _ & _ & _ & _ & _ & _ & I' & Ef & _).
  { destruct (contents_key_dec (named src err ext usi) (contents s Ls c)) as [K|K]; auto.
    right. split; auto. intros ->. destruct Rm as [Rm|Rm]; [destruct (K Rm)|].
    pose proof (@used_inv _ _ _ _ (i_lists I)) as U. cbn in U. lia. }
  do 3 eexists. split; [exact Q|]. eapply effect_stored; eauto.
Qed.

(** It is refused, and nothing changes, exactly if it needs a new item and all
    are in use. *)
Theorem C34_add_full : forall s l src bits sev err ext addv qual usi len data ok1 ok2,
  reach s ->
  let x := CAdd src bits sev err ext addv qual usi len data ok1 ok2 in
  proper x -> acceptable maxm src sev err ext addv qual usi len data ->
  stored s (s_key src) = Some l ->
  ~ In (named src err ext usi) (map key_of l) -> used max s = max ->
  dstep x s = Some (s, -1, [])%Z.
Proof.
  intros s l src bits sev err ext addv qual usi len data ok1 ok2 R x P A H K U.
  destruct (reach_inv max_pos R) as (Ls & F & I & _).
  destruct (@stored_some _ _ _ _ _ I H) as (c & Fc & ->).
  destruct (@add_step max maxm s Ls F c src bits sev err ext addv qual usi len data ok1 ok2 I Fc P A) as [_ B].
  apply B; auto. pose proof (@used_inv _ _ _ _ (i_lists I)) as V. destruct F; auto. cbn in V. lia.
Qed.

(** Updating changes the value of the named diagnosis only. *)
Theorem C34_update : forall s l d src err ext addv usi len data ok1 ok2,
  reach s ->
  let x := CUpdate src err ext addv usi len data ok1 ok2 in
  proper x -> acceptable_update maxm src err ext addv usi len data ->
  stored s (s_key src) = Some l -> In d l -> key_of d = named src err ext usi ->
  exists s' r os, dstep x s = Some (s', r, os) /\
    stored s' (s_key src) =
      Some (updated addv len data d ::
            filter (fun e => negb (has_key (key_of d) e)) l) /\
    forall k, k <> s_key src -> stored s' k = stored s k.
Proof.
  intros s l d src err ext addv usi len data ok1 ok2 R x P A H Hd K.
  destruct (reach_inv max_pos R) as (Ls & F & I & _).
  destruct (@stored_some _ _ _ _ _ I H) as (c & Fc & ->). destruct P as [P _].
  destruct (@update_step max maxm s Ls F c src err ext addv usi len data ok1 ok2 I Fc P A) as [B _].
  destruct (B d Hd K) as (s' & Ls' & y & Rr & old & Q & _ & _ & _ & _ & _ & _ & I' & Ef & _).
  do 3 eexists. split; [exact Q|]. rewrite K. eapply effect_stored; eauto.
Qed.

(** Removing deletes the named diagnosis only. *)
Theorem C34_remove : forall s l d src err ext usi ok,
  reach s ->
  let x := CRemove src err ext usi ok in
  proper x -> acceptable_key src err ext usi ->
  stored s (s_key src) = Some l -> In d l -> key_of d = named src err ext usi ->
  exists s' r os, dstep x s = Some (s', r, os) /\
    stored s' (s_key src) = Some (filter (fun e => negb (has_key (key_of d) e)) l) /\
    (forall k, k <> s_key src -> stored s' k = stored s k) /\
    S (used max s') = used max s.
Proof.
  intros s l d src err ext usi ok R x P A H Hd K.
  destruct (reach_inv max_pos R) as (Ls & F & I & _).
  destruct (@stored_some _ _ _ _ _ I H) as (c & Fc & ->). destruct P as [P _].
  destruct (@remove_step max s Ls F c src err ext usi ok I Fc P A) as [B _].
  destruct (B d Hd K) as (s' & Ls' & F' & y & Rr & Q & _ & _ & _ & I' & Ef & C1 & _).
  do 3 eexists. split; [exact Q|]. rewrite K.
  destruct (@effect_stored _ _ _ _ _ _ _ _ _ I I' Ef Fc) as [X Y]. split; [exact X|]. split; [exact Y|].
  pose proof (@used_inv _ _ _ _ (i_lists I)) as U. pose proof (@used_inv _ _ _ _ (i_lists I')) as U'. lia.
Qed.

(** Calls for unknown diagnoses or sub-slots and calls with unacceptable
    parameters change nothing. *)
Theorem C34_rejected : forall s x, reach s -> proper x ->
  match x with
  | CAdd src bits sev err ext addv qual usi len data _ _ =>
      ~ acceptable maxm src sev err ext addv qual usi len data \/ stored s (s_key src) = None
  | CUpdate src err ext addv usi len data _ _ =>
      ~ acceptable_update maxm src err ext addv usi len data \/ stored s (s_key src) = None \/
      exists l, stored s (s_key src) = Some l /\ ~ In (named src err ext usi) (map key_of l)
  | CRemove src err ext usi _ =>
      ~ acceptable_key src err ext usi \/ stored s (s_key src) = None \/
      exists l, stored s (s_key src) = Some l /\ ~ In (named src err ext usi) (map key_of l)
  | _ => False
  end -> dstep x s = Some (s, -1, [])%Z.
Proof.
  intros s x R P H. destruct (reach_inv max_pos R) as (Ls & F & I & _).
  assert (No : forall k, stored s k = None -> find_cell k (cells s) = None).
  { intros k. destruct (find_cell k (cells s)) eqn:Fc; auto. rewrite (@stored_inv _ _ _ _ _ _ I Fc). discriminate. }
  destruct x as [src bits sev err ext addv qual usi len data ok1 ok2|
    src err ext addv usi len data ok1 ok2|src err ext usi ok|c k|k|c o]; try contradiction;
    cbn [DiagModel.dstep].
  - unfold diag_add. cbv zeta.
    destruct (add_valid maxm src sev err ext addv (Z.land qual (Z.lnot 7)) usi len data) eqn:V; auto.
    apply add_valid_iff in V. destruct H as [H|H]; [destruct (H V)|]. rewrite (No _ H). reflexivity.
  - destruct (update_valid maxm src err ext addv usi len data) eqn:V;
      [|unfold diag_update; rewrite V; reflexivity].
    destruct (find_cell (s_key src) (cells s)) as [c|] eqn:Fc;
      [|unfold diag_update; rewrite V, Fc; reflexivity].
    apply update_valid_iff in V. destruct P as [P _].
    destruct H as [H|[H|(l & H & K)]]; [destruct (H V)|apply No in H; congruence|].
    destruct (@stored_some _ _ _ _ _ I H) as (c' & Fc' & ->). rewrite Fc in Fc'. injection Fc' as <-.
    destruct (@update_step max maxm s Ls F c src err ext addv usi len data ok1 ok2 I Fc P V) as [_ B].
    apply B; auto.
  - destruct (remove_valid src err ext usi) eqn:V; [|unfold diag_remove; rewrite V; reflexivity].
    destruct (find_cell (s_key src) (cells s)) as [c|] eqn:Fc;
      [|unfold diag_remove; rewrite V, Fc; reflexivity].
    apply remove_valid_iff in V. destruct P as [P _].
    destruct H as [H|[H|(l & H & K)]]; [destruct (H V)|apply No in H; congruence|].
    destruct (@stored_some _ _ _ _ _ I H) as (c' & Fc' & ->). rewrite Fc in Fc'. injection Fc' as <-.
    destruct (@remove_step max s Ls F c src err ext usi ok I Fc P V) as [_ B].
    apply B; auto.
Qed.

(** As long as no sub-module is pulled no item is lost: the number of items in
    use is the number of stored diagnoses. *)
Definition total (s : dstate) : nat :=
  list_sum (map (fun c => match stored s (c_key c) with Some l => length l | None => 0 end)
              (filter c_use (cells s))).

Definition counted (s : dstate) (Ls : nat -> list nat) (F : list nat) : Prop :=
  length F + list_sum (map (fun j => length (Ls j)) (seq 0 (length (cells s)))) = max /\
  forall j, j < length (cells s) -> c_use (nth j (cells s) dcell) = false -> Ls j = [].

Lemma sum_change : forall (f g : nat -> nat) c m a, c < m -> (forall j, j < m -> j <> c -> f j = g j) ->
  f c + a = g c -> list_sum (map f (seq 0 m)) + a = list_sum (map g (seq 0 m)).
Proof.
  intros f g c m a H E Ec.
  assert (G : forall k s, s <= c < s + k -> s + k <= m -> list_sum (map f (seq s k)) + a = list_sum (map g (seq s k))).
  { induction k as [|k IH]; intros s0 B B'; [lia|]. cbn [seq map list_sum fold_right].
    change (fold_right Nat.add 0 (map f (seq (S s0) k))) with (list_sum (map f (seq (S s0) k))).
    change (fold_right Nat.add 0 (map g (seq (S s0) k))) with (list_sum (map g (seq (S s0) k))).
    destruct (Nat.eq_dec s0 c) as [->|D].
    - assert (map f (seq (S c) k) = map g (seq (S c) k)).
      { apply map_ext_in. intros j Hj. apply in_seq in Hj. apply E; lia. }
      rewrite H0. lia.
    - rewrite (E s0) by lia. rewrite <- (IH (S s0)) by lia. lia. }
  apply G; lia.
Qed.

Lemma sum_same : forall f g m, (forall j, j < m -> f j = g j) ->
  list_sum (map f (seq 0 m)) = list_sum (map g (seq 0 m)).
Proof.
  intros f g m H. f_equal. apply map_ext_in. intros j Hj. apply in_seq in Hj. apply H. lia.
Qed.

Lemma len_contents : forall s Ls j, length (contents s Ls j) = length (Ls j).
Proof. intros. unfold contents. now rewrite !map_length. Qed.

Lemma effect_counted : forall s Ls F s' Ls' F' c new, counted s Ls F -> c < length (cells s) ->
  c_use (nth c (cells s) dcell) = true ->
  effect s Ls s' Ls' c new ->
  length F' + length new = length F + length (contents s Ls c) ->
  counted s' Ls' F'.
Proof.
  intros s Ls F s' Ls' F' c new [C1 C2] Hc Uc Ef E.
  destruct (e_cells Ef) as (Le & Us & _).
  assert (Lj : forall j, j < length (cells s) -> j <> c -> length (Ls' j) = length (Ls j)).
  { intros j Hj D. rewrite <- (len_contents s' Ls' j), <- (len_contents s Ls j). f_equal.
    now apply (e_old Ef). }
  assert (Lc : length (Ls' c) = length new).
  { rewrite <- (e_new Ef). now rewrite len_contents. }
  rewrite len_contents in E. split.
  - rewrite Le.
    destruct (Nat.le_gt_cases (length (Ls' c)) (length (Ls c))) as [H|H].
    + pose proof (@sum_change (fun j => length (Ls' j)) (fun j => length (Ls j)) c
                 (length (cells s)) (length (Ls c) - length (Ls' c)) Hc) as Q.
      rewrite <- Q in C1; auto; lia.
    + pose proof (@sum_change (fun j => length (Ls j)) (fun j => length (Ls' j)) c
                 (length (cells s)) (length (Ls' c) - length (Ls c)) Hc) as Q.
      rewrite <- Q; [lia| |lia]. intros j Hj D. symmetry. auto.
  - intros j Hj U. rewrite Us in U. rewrite Le in Hj.
    assert (D : j <> c) by (intros ->; congruence).
    apply length_zero_iff_nil. rewrite Lj by auto. rewrite (C2 j Hj U). reflexivity.
Qed.

Lemma step_counted : forall s Ls F x, dinv max s Ls F -> counted s Ls F -> proper x ->
  never_pulls x ->
  exists s' r os Ls' F', dstep x s = Some (s', r, os) /\ dinv max s' Ls' F' /\ counted s' Ls' F'.
Proof.
  intros s Ls F x I C P NP. destruct x as [src bits sev err ext addv qual usi len data ok1 ok2|
    src err ext addv usi len data ok1 ok2|src err ext usi ok|c k|k|c o].
  - cbn [DiagModel.dstep]. destruct (add_valid maxm src sev err ext addv (Z.land qual (Z.lnot 7)) usi len data) eqn:V.
    2:{ unfold diag_add. cbv zeta. rewrite V. exists s, (-1)%Z, [], Ls, F. auto. }
    destruct (find_cell (s_key src) (cells s)) as [c|] eqn:Fc.
    2:{ unfold diag_add. cbv zeta. rewrite V, Fc. exists s, (-1)%Z, [], Ls, F. auto. }
    apply add_valid_iff in V. destruct (find_cell_some _ _ Fc) as (Hc & Uc & _).
    destruct (@add_step max maxm s Ls F c src bits sev err ext addv qual usi len data ok1 ok2 I Fc P V) as [A B].
    destruct (contents_key_dec (named src err ext usi) (contents s Ls c)) as [K|K].
    + destruct (A (or_introl K)) as (s' & Ls' & F' & x & R & old & Q & _ & _ & _ & _ & _ & _ & I' & Ef & Ct).
      exists s'. do 2 eexists. exists Ls', F'. split; [exact Q|]. split; [exact I'|].
      eapply effect_counted; eauto.
    + destruct F as [|i F].
      * rewrite (B K eq_refl). exists s, (-1)%Z, [], Ls, []. auto.
      * destruct A as (s' & Ls' & F' & x & R & old & Q & _ & _ & _ & _ & _ & _ & I' & Ef & Ct).
        { right. split; [discriminate|exact K]. }
        exists s'. do 2 eexists. exists Ls', F'. split; [exact Q|]. split; [exact I'|].
        eapply effect_counted; eauto.
  - cbn [DiagModel.dstep]. destruct (update_valid maxm src err ext addv usi len data) eqn:V.
    2:{ unfold diag_update. rewrite V. exists s, (-1)%Z, [], Ls, F. auto. }
    destruct (find_cell (s_key src) (cells s)) as [c|] eqn:Fc.
    2:{ unfold diag_update. rewrite V, Fc. exists s, (-1)%Z, [], Ls, F. auto. }
    apply update_valid_iff in V. destruct P as [P _]. destruct (find_cell_some _ _ Fc) as (Hc & Uc & _).
    destruct (@update_step max maxm s Ls F c src err ext addv usi len data ok1 ok2 I Fc P V) as [A B].
    destruct (contents_key_dec (named src err ext usi) (contents s Ls c)) as [K|K].
    + apply in_map_iff in K. destruct K as (d & Kd & Hd).
      destruct (A d Hd Kd) as (s' & Ls' & x & R & old & Q & _ & _ & _ & _ & _ & _ & I' & Ef & Ct).
      exists s'. do 2 eexists. exists Ls', F. split; [exact Q|]. split; [exact I'|].
      eapply effect_counted; eauto.
    + rewrite (B K). exists s, (-1)%Z, [], Ls, F. auto.
  - cbn [DiagModel.dstep]. destruct (remove_valid src err ext usi) eqn:V.
    2:{ unfold diag_remove. rewrite V. exists s, (-1)%Z, [], Ls, F. auto. }
    destruct (find_cell (s_key src) (cells s)) as [c|] eqn:Fc.
    2:{ unfold diag_remove. rewrite V, Fc. exists s, (-1)%Z, [], Ls, F. auto. }
    apply remove_valid_iff in V. destruct P as [P _]. destruct (find_cell_some _ _ Fc) as (Hc & Uc & _).
    destruct (@remove_step max s Ls F c src err ext usi ok I Fc P V) as [A B].
    destruct (contents_key_dec (named src err ext usi) (contents s Ls c)) as [K|K].
    + apply in_map_iff in K. destruct K as (d & Kd & Hd).
      destruct (A d Hd Kd) as (s' & Ls' & F' & x & R & Q & _ & _ & _ & I' & Ef & C1 & C2).
      exists s'. do 2 eexists. exists Ls', F'. split; [exact Q|]. split; [exact I'|].
      eapply effect_counted; eauto. lia.
    + rewrite (B K). exists s, (-1)%Z, [], Ls, F. auto.
  - destruct (@plug_step max maxm s Ls F c k I) as (s' & r & Ls' & Q & I' & D).
    exists s', r, [], Ls', F. split; [exact Q|]. split; [exact I'|].
    destruct D as [(-> & -> & _)|(_ & Hc & Uc & -> & ->)]; auto. destruct C as [C1 C2].
    unfold counted. cbn [cells]. rewrite set_cell_length. split.
    + rewrite <- C1. f_equal. apply sum_same. intros j Hj. unfold upd.
      destruct (Nat.eqb_spec j c) as [->|]; auto. now rewrite C2.
    + intros j Hj U. unfold upd. destruct (Nat.eqb_spec j c) as [->|D]; auto.
      rewrite nth_set_other in U by auto. auto.
  - destruct NP.
  - cbn [DiagModel.dstep]. do 3 eexists. exists Ls, F. split; [reflexivity|].
    split; [apply cell_step; auto|]. destruct C as [C1 C2]. unfold counted. cbn [cells].
    rewrite set_cell_length. split; auto. intros j Hj U. apply C2; auto. rewrite <- U.
    destruct (Nat.eq_dec j c) as [->|D]; [now rewrite nth_set_same|now rewrite nth_set_other].
Qed.

Lemma reach_counted : forall s, dreach max maxm n (fun x => proper x /\ never_pulls x) s ->
  exists Ls F, dinv max s Ls F /\ counted s Ls F.
Proof.
  intros s (xs & tr & P & R).
  assert (G : forall xs s0 tr0, Forall (fun x => proper x /\ never_pulls x) xs ->
    (exists Ls F, dinv max s0 Ls F /\ counted s0 Ls F) ->
    drun max maxm xs s0 tr0 = Some (s, tr) -> exists Ls F, dinv max s Ls F /\ counted s Ls F).
  { clear xs P R. induction xs as [|x xs IH]; cbn [drun]; intros s0 tr0 P (Ls & F & I & C) R.
    - injection R as <- _. eauto.
    - inversion P; subst. destruct H1 as [P1 P2].
      destruct (@step_counted s0 Ls F x I C P1 P2) as (s' & r & os & Ls' & F' & Q & I' & C').
      rewrite Q in R. eapply IH; eauto. }
  eapply G; eauto. exists (fun _ => []), (seq 0 max). split; [now apply init_inv|].
  split; [|reflexivity]. rewrite seq_length. cbn [length].
  assert (Z : forall l : list nat, list_sum (map (fun _ => 0) l) = 0) by (induction l; auto).
  rewrite Z. lia.
Qed.

Theorem C34_no_leak : forall s, dreach max maxm n (fun x => proper x /\ never_pulls x) s ->
  used max s = total s.
Proof.
  intros s R. destruct (reach_counted R) as (Ls & F & I & C1 & C2).
  pose proof (@used_inv _ _ _ _ (i_lists I)) as U.
  assert (T : total s = list_sum (map (fun j => length (Ls j)) (seq 0 (length (cells s))))); [|lia].
  assert (G : forall cs o, cells s = o ++ cs ->
    list_sum (map (fun c => match stored s (c_key c) with Some l => length l | None => 0 end)
              (filter c_use cs)) =
    list_sum (map (fun j => length (Ls j)) (seq (length o) (length cs)))).
  { induction cs as [|c cs IH]; intros o E; auto.
    assert (Nc : nth (length o) (cells s) dcell = c).
    { rewrite E, app_nth2, Nat.sub_diag by lia. reflexivity. }
    assert (Hc : length o < length (cells s)) by (rewrite E, app_length; cbn; lia).
    specialize (IH (o ++ [c])). rewrite <- app_assoc in IH. specialize (IH E).
    rewrite app_length, Nat.add_1_r in IH. cbn [length seq map list_sum fold_right filter].
    destruct (c_use c) eqn:Uc.
    - cbn [map list_sum fold_right].
      assert (Fc : find_cell (c_key c) (cells s) = Some (length o)).
      { destruct (find_cell (c_key c) (cells s)) as [j|] eqn:Fc.
        - destruct (find_cell_some _ _ Fc) as (Hj & Uj & Kj & _). f_equal.
          apply (i_keys I); auto; [rewrite Nc; auto|]. now rewrite Nc.
        - exfalso. apply (@find_cell_none _ _ Fc (length o)); rewrite Nc; auto. }
      rewrite (@stored_inv _ _ _ _ _ _ I Fc), !map_length. unfold list_sum in IH. rewrite IH. reflexivity.
    - rewrite (C2 (length o)); [|exact Hc|now rewrite Nc]. cbn [length]. exact IH. }
  unfold total. now rewrite (G (cells s) []).
Qed.

(** ** C53: summary of a sub-module *)
Lemma severity_spec : forall sev mask d, good_props (ch_props d) -> (0 <= qualifier d)%Z ->
  Z.land (Z.lnot 7) mask = mask ->
  severity_is sev mask d =
  ((p_maint (ch_props d) =? sev) || ((p_maint (ch_props d) =? 3) && negb (Z.land (qualifier d) mask =? 0)))%Z.
Proof.
  intros sev mask d G Q M. unfold severity_is. destruct (good_fields G) as (_ & _ & -> & _).
  change m_qualified with 3%Z. destruct (p_maint (ch_props d) =? sev)%Z; auto.
  destruct (p_maint (ch_props d) =? 3)%Z; auto. cbn [orb andb].
  rewrite <- Z.land_assoc, M.
  assert (0 <= Z.land (qualifier d) mask)%Z by (apply Z.land_nonneg; auto).
  destruct (Z.ltb_spec 0 (Z.land (qualifier d) mask)); destruct (Z.eqb_spec (Z.land (qualifier d) mask) 0); auto; lia.
Qed.

Lemma add_summary_spec : forall i s, good_item i ->
  add_summary i s = mkSum (su_fault s || is_fault (content i)) (su_req s || is_required (content i))
                          (su_dem s || is_demanded (content i)).
Proof.
  intros i s [_ G]. unfold add_summary, content. change usi_channel with 32768%Z.
  destruct (Z.ltb_spec (d_usi i) 32768) as [U|U].
  - cbn. now rewrite orb_true_r, !orb_false_r.
  - destruct (G U) as (P & Q & _). destruct (good_fields P) as (_ & _ & _ & -> & _).
    unfold is_fault, is_required, is_demanded, has_severity.
    rewrite !severity_spec by (auto; reflexivity). reflexivity.
Qed.

Lemma summarize_spec : forall l, all_good l ->
  summarize l = mkSum (existsb is_fault (map content l)) (existsb is_required (map content l))
                      (existsb is_demanded (map content l)).
Proof.
  assert (G : forall l s, all_good l ->
    fold_left (fun s i => if d_use i then add_summary i s else s) l s =
    mkSum (su_fault s || existsb is_fault (map content l)) (su_req s || existsb is_required (map content l))
          (su_dem s || existsb is_demanded (map content l))).
  { induction l as [|i l IH]; intros s A.
    - cbn. rewrite !orb_false_r. now destruct s.
    - inversion A as [|? ? [U Gi] A']; subst. cbn [fold_left map existsb]. rewrite U, (add_summary_spec s Gi).
      rewrite IH by exact A'. cbn [su_fault su_req su_dem]. now rewrite !orb_assoc. }
  intros l A. unfold summarize. rewrite G by exact A. reflexivity.
Qed.

Theorem C53_summary : forall s k l c, reach s -> stored s k = Some l ->
  find_cell k (cells s) = Some c ->
  let d := c_sum (cell_at c s) in
  (su_fault d = true <-> exists x, In x l /\ is_fault x = true) /\
  (su_req d = true <-> exists x, In x l /\ is_required x = true) /\
  (su_dem d = true <-> exists x, In x l /\ is_demanded x = true).
Proof.
  intros s k l c R H Fc d. destruct (reach_inv max_pos R) as (Ls & F & I & _).
  destruct (@stored_some _ _ _ _ _ I H) as (c' & Fc' & ->). rewrite Fc in Fc'. injection Fc' as <-.
  destruct (find_cell_some _ _ Fc) as (Hc & Uc & _).
  assert (E : d = summarize (map (items s) (Ls c))) by exact (@i_sum _ _ _ _ I c Uc).
  rewrite summarize_spec in E by (eapply good_items; eauto; apply incl_refl).
  fold (contents s Ls c) in E. rewrite E. cbn [su_fault su_req su_dem].
  rewrite !existsb_exists. repeat split; auto.
Qed.

(** ** C35: station problem indicator *)
Lemma problem_spec : forall l, all_good l -> is_problem l = existsb plain_fault (map content l).
Proof.
  induction l as [|i l IH]; intros A; auto. inversion A as [|? ? [U Gi] A']; subst.
  unfold is_problem in *. cbn [existsb map]. rewrite U. cbn [andb]. rewrite (IH A'). f_equal.
  unfold content. change usi_channel with 32768%Z. destruct (Z.ltb_spec (d_usi i) 32768) as [V|V]; auto.
  destruct Gi as [_ Gi]. destruct (Gi V) as (P & _). cbn [orb plain_fault]. destruct (good_fields P) as (_ & _ & -> & _).
  reflexivity.
Qed.

(** Whenever the indicator is written it is written for the connection that
    owns the sub-slot of the call, and it is set exactly if one of the
    diagnoses now stored there is a fault. *)
Theorem C35_touched_partial : forall s x s' r os ar b, reach s -> proper x ->
  dstep x s = Some (s', r, os) -> In (DIndicator ar b) os ->
  exists k l, stored s' k = Some l /\ owner_of s k = Some ar /\
    (b = true <-> exists d, In d l /\ plain_fault d = true).
Proof.
  intros s x s' r os ar b R P E H. destruct (reach_inv max_pos R) as (Ls & F & I & _).
  assert (One : forall cl k y Rr old, In (DIndicator ar b) (reports cl k y Rr old) ->
     d_use y = true -> good_item y -> all_good Rr ->
     c_owner cl = Some ar /\ (b = true <-> exists d, In d (content y :: map content Rr) /\ plain_fault d = true)).
  { intros cl k y Rr old Hi Uy Gy Ag. unfold reports in Hi. destruct (c_owner cl) as [a|]; [|destruct Hi].
    destruct Hi as [Hi|[Hi|Hi]]; [discriminate| |destruct old as [o|]; [destruct Hi as [Hi|[]]; discriminate|destruct Hi]].
    assert (Eb : b = is_problem (y :: Rr)) by congruence.
    assert (Ea : a = ar) by congruence. rewrite Eb, Ea. split; auto. rewrite problem_spec by (constructor; auto).
    cbn [map]. rewrite existsb_exists. reflexivity. }
  assert (Nochg : dstep x s = Some (s, -1, [])%Z -> False).
  { intros Q. rewrite Q in E. injection E as _ _ <-. destruct H. }
  destruct x as [src bits sev err ext addv qual usi len data ok1 ok2|
    src err ext addv usi len data ok1 ok2|src err ext usi ok|c k|k|c o].
  - destruct (add_valid maxm src sev err ext addv (Z.land qual (Z.lnot 7)) usi len data) eqn:V.
    2:{ destruct Nochg. cbn. unfold diag_add. cbv zeta. now rewrite V. }
    destruct (find_cell (s_key src) (cells s)) as [c|] eqn:Fc.
    2:{ destruct Nochg. cbn. unfold diag_add. cbv zeta. now rewrite V, Fc. }
    apply add_valid_iff in V.
    destruct (@add_step max maxm s Ls F c src bits sev err ext addv qual usi len data ok1 ok2 I Fc P V) as [A B].
    destruct A as (s1 & Ls' & F' & y & Rr & old & Q & Cy & Uy & Gy & Mr & Ag & _ & I' & Ef & _).
    { destruct (contents_key_dec (named src err ext usi) (contents s Ls c)) as [K|K]; auto.
      right. split; [intros Fe|exact K]. apply Nochg. cbn. apply B; auto. }
    cbn [DiagModel.dstep] in E. rewrite Q in E. injection E as <- _ <-.
    destruct (One _ _ _ _ _ H Uy Gy Ag) as [O1 O2].
    destruct (@effect_stored _ _ _ _ _ _ _ _ _ I I' Ef Fc) as [St _].
    exists (s_key src). eexists. split; [exact St|]. split; [unfold owner_of; now rewrite Fc|].
    rewrite <- Mr, <- Cy. exact O2.
  - destruct (update_valid maxm src err ext addv usi len data) eqn:V.
    2:{ destruct Nochg. cbn. unfold diag_update. now rewrite V. }
    destruct (find_cell (s_key src) (cells s)) as [c|] eqn:Fc.
    2:{ destruct Nochg. cbn. unfold diag_update. now rewrite V, Fc. }
    apply update_valid_iff in V. destruct P as [P _].
    destruct (@update_step max maxm s Ls F c src err ext addv usi len data ok1 ok2 I Fc P V) as [A B].
    destruct (contents_key_dec (named src err ext usi) (contents s Ls c)) as [K|K].
    2:{ destruct Nochg. cbn. apply B; auto. }
    apply in_map_iff in K. destruct K as (d & Kd & Hd).
    destruct (A d Hd Kd) as (s1 & Ls' & y & Rr & old & Q & Cy & Uy & Gy & Mr & Ag & _ & I' & Ef & _).
    cbn [DiagModel.dstep] in E. rewrite Q in E. injection E as <- _ <-.
    destruct (One _ _ _ _ _ H Uy Gy Ag) as [O1 O2].
    destruct (@effect_stored _ _ _ _ _ _ _ _ _ I I' Ef Fc) as [St _].
    exists (s_key src). eexists. split; [exact St|]. split; [unfold owner_of; now rewrite Fc|].
    rewrite <- Mr, <- Cy. exact O2.
  - destruct (remove_valid src err ext usi) eqn:V.
    2:{ destruct Nochg. cbn. unfold diag_remove. now rewrite V. }
    destruct (find_cell (s_key src) (cells s)) as [c|] eqn:Fc.
    2:{ destruct Nochg. cbn. unfold diag_remove. now rewrite V, Fc. }
    apply remove_valid_iff in V. destruct P as [P _].
    destruct (@remove_step max s Ls F c src err ext usi ok I Fc P V) as [A B].
    destruct (contents_key_dec (named src err ext usi) (contents s Ls c)) as [K|K].
    2:{ destruct Nochg. cbn. apply B; auto. }
    apply in_map_iff in K. destruct K as (d & Kd & Hd).
    destruct (A d Hd Kd) as (s1 & Ls' & F' & y & Rr & Q & _ & Mr & Ag & I' & Ef & _).
    cbn [DiagModel.dstep] in E. rewrite Q in E. injection E as <- _ <-.
    destruct (@effect_stored _ _ _ _ _ _ _ _ _ I I' Ef Fc) as [St _].
    destruct (c_owner (nth c (cells s) dcell)) as [a|] eqn:Ow; [|destruct H].
    destruct H as [H|[H|[]]].
    { unfold gone_report in H. destruct (usi_channel <=? usi)%Z; discriminate. }
    injection H as -> <-.
    exists (s_key src). eexists. split; [exact St|].
    split; [unfold owner_of; rewrite Fc; exact Ow|].
    rewrite problem_spec by exact Ag. rewrite Mr, existsb_exists. reflexivity.
  - exfalso. destruct (@plug_step max maxm s Ls F c k I) as (s1 & r1 & Ls' & Q & _).
    rewrite Q in E. injection E as _ _ <-. destruct H.
  - exfalso. cbn [DiagModel.dstep] in E. destruct (find_cell k (cells s)); injection E as _ _ <-; destruct H.
  - exfalso. cbn [DiagModel.dstep] in E. injection E as _ _ <-; destruct H.
Qed.

(** Every accepted change on an owned sub-slot writes the indicator. *)
Theorem C35_written : forall s x s' r os, reach s -> proper x ->
  dstep x s = Some (s', r, os) ->
  forall k l l' ar, owner_of s k = Some ar -> stored s k = Some l -> stored s' k = Some l' ->
  l' <> l -> exists b, In (DIndicator ar b) os.
Proof.
  intros s x s' r os R P E k l l' ar Ow Sl Sl' D. destruct (reach_inv max_pos R) as (Ls & F & I & _).
  assert (Nochg : dstep x s = Some (s, -1, [])%Z -> False).
  { intros Q. rewrite Q in E. injection E as <- _ _. congruence. }
  unfold owner_of in Ow. destruct (find_cell k (cells s)) as [c0|] eqn:Fk; [|discriminate].
  change (cell_at c0 s) with (nth c0 (cells s) dcell) in Ow.
  assert (Same : forall src c, find_cell (s_key src) (cells s) = Some c ->
     (k <> s_key src -> stored s' k = stored s k) -> c = c0).
  { intros src c Fc H. destruct (key_eqb k (s_key src)) eqn:Ke.
    - apply key_eqb_eq in Ke. congruence.
    - exfalso. assert (k <> s_key src) by (intros Q; apply key_eqb_eq in Q; congruence).
      rewrite (H H0) in Sl'. congruence. }
  destruct x as [src bits sev err ext addv qual usi len data ok1 ok2|
    src err ext addv usi len data ok1 ok2|src err ext usi ok|c k0|k0|c o].
  - destruct (add_valid maxm src sev err ext addv (Z.land qual (Z.lnot 7)) usi len data) eqn:V.
    2:{ destruct Nochg. cbn. unfold diag_add. cbv zeta. now rewrite V. }
    destruct (find_cell (s_key src) (cells s)) as [c|] eqn:Fc.
    2:{ destruct Nochg. cbn. unfold diag_add. cbv zeta. now rewrite V, Fc. }
    apply add_valid_iff in V.
    destruct (@add_step max maxm s Ls F c src bits sev err ext addv qual usi len data ok1 ok2 I Fc P V) as [A B].
    destruct A as (s1 & Ls' & F' & y & Rr & old & Q & Cy & Uy & Gy & Mr & Ag & _ & I' & Ef & _).
    { destruct (contents_key_dec (named src err ext usi) (contents s Ls c)) as [K|K]; auto.
      right. split; [intros Fe|exact K]. apply Nochg. cbn. apply B; auto. }
    cbn [DiagModel.dstep] in E. rewrite Q in E. injection E as <- _ <-.
    destruct (@effect_stored _ _ _ _ _ _ _ _ _ I I' Ef Fc) as [_ Ot]. specialize (Same src c Fc (Ot k)). subst c0.
    unfold reports. rewrite Ow. eexists. cbn. eauto.
  - destruct (update_valid maxm src err ext addv usi len data) eqn:V.
    2:{ destruct Nochg. cbn. unfold diag_update. now rewrite V. }
    destruct (find_cell (s_key src) (cells s)) as [c|] eqn:Fc.
    2:{ destruct Nochg. cbn. unfold diag_update. now rewrite V, Fc. }
    apply update_valid_iff in V. destruct P as [P _].
    destruct (@update_step max maxm s Ls F c src err ext addv usi len data ok1 ok2 I Fc P V) as [A B].
    destruct (contents_key_dec (named src err ext usi) (contents s Ls c)) as [K|K].
    2:{ destruct Nochg. cbn. apply B; auto. }
    apply in_map_iff in K. destruct K as (d & Kd & Hd).
    destruct (A d Hd Kd) as (s1 & Ls' & y & Rr & old & Q & Cy & Uy & Gy & Mr & Ag & _ & I' & Ef & _).
    cbn [DiagModel.dstep] in E. rewrite Q in E. injection E as <- _ <-.
    destruct (@effect_stored _ _ _ _ _ _ _ _ _ I I' Ef Fc) as [_ Ot]. specialize (Same src c Fc (Ot k)). subst c0.
    unfold reports. rewrite Ow. eexists. cbn. eauto.
  - destruct (remove_valid src err ext usi) eqn:V.
    2:{ destruct Nochg. cbn. unfold diag_remove. now rewrite V. }
    destruct (find_cell (s_key src) (cells s)) as [c|] eqn:Fc.
    2:{ destruct Nochg. cbn. unfold diag_remove. now rewrite V, Fc. }
    apply remove_valid_iff in V. destruct P as [P _].
    destruct (@remove_step max s Ls F c src err ext usi ok I Fc P V) as [A B].
    destruct (contents_key_dec (named src err ext usi) (contents s Ls c)) as [K|K].
    2:{ destruct Nochg. cbn. apply B; auto. }
    apply in_map_iff in K. destruct K as (d & Kd & Hd).
    destruct (A d Hd Kd) as (s1 & Ls' & F' & y & Rr & Q & _ & Mr & Ag & I' & Ef & _).
    cbn [DiagModel.dstep] in E. rewrite Q in E. injection E as <- _ <-.
    destruct (@effect_stored _ _ _ _ _ _ _ _ _ I I' Ef Fc) as [_ Ot]. specialize (Same src c Fc (Ot k)). subst c0.
    rewrite Ow. eexists. cbn. eauto.
  - exfalso. destruct (@plug_step max maxm s Ls F c k0 I) as (s1 & r1 & Ls' & Q & I' & Dj).
    rewrite Q in E. injection E as <- _ _.
    destruct Dj as [(-> & _)|(Fn & Hc & Uc & -> & ->)]; [congruence|].
    destruct (find_cell_some _ _ Fk) as (Hc0 & Uc0 & Kc0 & _).
    assert (D1 : c0 <> c) by (intros ->; congruence).
    assert (D2 : find_cell k (set_cell c (mkCell true k0 None None sum0) (cells s)) = Some c0).
    { destruct (find_cell k (set_cell c (mkCell true k0 None None sum0) (cells s))) as [c1|] eqn:F1.
      - destruct (find_cell_some _ _ F1) as (_ & U1 & K1 & _). f_equal.
        destruct (Nat.eq_dec c1 c) as [->|D2].
        + rewrite nth_set_same in K1 by auto. cbn in K1. congruence.
        + rewrite nth_set_other in U1, K1 by auto. apply (i_keys I); congruence.
      - exfalso. apply (@find_cell_none _ _ F1 c0); rewrite nth_set_other by auto; auto. }
    assert (Sx := @stored_inv _ _ _ _ _ _ I' D2). rewrite Sl' in Sx.
    rewrite (@stored_inv _ _ _ _ _ _ I Fk) in Sl. cbn [items] in Sx. rewrite upd_other in Sx by auto. congruence.
  - exfalso. destruct (find_cell_some _ _ Fk) as (Hc0 & Uc0 & Kc0 & _).
    cbn [DiagModel.dstep] in E. destruct (find_cell k0 (cells s)) as [c|] eqn:Fc.
    2:{ injection E as <- _ _. congruence. }
    assert (I' : dinv max s' Ls F).
    { injection E as <- _ _. apply cell_step; auto. discriminate. }
    destruct (@stored_some _ _ _ _ _ I' Sl') as (c1 & F1 & ->).
    assert (c1 = c0).
    { injection E as <- _ _. cbn [cells] in F1. destruct (find_cell_some _ _ F1) as (H1 & U1 & K1 & _).
      rewrite set_cell_length in H1. destruct (Nat.eq_dec c1 c) as [->|D2].
      - rewrite nth_set_same in U1 by auto. discriminate.
      - rewrite nth_set_other in U1, K1 by auto. apply (i_keys I); congruence. }
    subst c1. apply D. rewrite (@stored_inv _ _ _ _ _ _ I Fk) in Sl. injection Sl as <-.
    injection E as <- _ _. reflexivity.
  - exfalso. cbn [DiagModel.dstep] in E.
    assert (I' : dinv max s' Ls F).
    { injection E as <- _ _. apply cell_step; auto. }
    destruct (@stored_some _ _ _ _ _ I' Sl') as (c1 & F1 & ->).
    assert (c1 = c0).
    { injection E as <- _ _. cbn [cells] in F1.
      rewrite (@find_cell_ext k (cells s)) in F1; [congruence|apply set_cell_length| |];
      intros j; destruct (Nat.lt_ge_cases c (length (cells s))) as [Hc|Hc];
        try (now rewrite set_cell_out by auto);
        (destruct (Nat.eq_dec j c) as [->|D2]; [now rewrite nth_set_same by auto|now rewrite nth_set_other by auto]). }
    subst c1. apply D. rewrite (@stored_inv _ _ _ _ _ _ I Fk) in Sl. injection Sl as <-.
    injection E as <- _ _. reflexivity.
Qed.
End Props.
