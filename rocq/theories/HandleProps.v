(** The handle of a connection finds this connection. *)
From Coq Require Import List ZArith Arith Bool Lia.
From Verif Require Import Base StateModel StateProps HandleModel.
Import ListNotations.

(** * Specification *)

(** The connections there are, as (index, request), in the order in which they were made. *)
Definition live1 (max_ar : nat) (l : list (nat * nat)) (s : seen) : list (nat * nat) :=
  match s with
  | STaken id (Some ix) => if ix <? max_ar then l ++ [(ix, id)] else l
  | STaken _ None => l
  | SGiven ix => filter (fun p => negb (fst p =? ix)) l
  end.
Definition live (max_ar : nat) (tr : list seen) : list (nat * nat) := fold_left (live1 max_ar) tr [].

(** * Proof *)

Definition Inv (max_ar : nat) (t : table) (l : list (nat * nat)) : Prop :=
  length (t_ars t) = S max_ar /\ t_nbr t = length l /\ length (t_order t) = max_ar /\
  (exists junk, t_order t = map fst l ++ junk) /\ NoDup (map fst l) /\
  (forall ix id, In (ix, id) l -> ix < max_ar /\ nth_error (t_ars t) ix = Some (mkEntry true (S ix) id)) /\
  (forall ix, ix < max_ar -> ~ In ix (map fst l) -> nth_error (t_ars t) ix = Some cleared) /\
  (exists u id, nth_error (t_ars t) max_ar = Some (mkEntry u 0 id)).

Lemma live_lt : forall max_ar t l ix, Inv max_ar t l -> In ix (map fst l) -> ix < max_ar.
Proof. intros m t l ix I H. apply in_map_iff in H. destruct H as ((a, b) & <- & H). apply I in H. apply H. Qed.

Lemma inv_short : forall max_ar t l ix, Inv max_ar t l -> ix < max_ar -> ~ In ix (map fst l) -> length l < max_ar.
Proof.
  intros m t l ix I H N. assert (Q : length (ix :: map fst l) <= length (seq 0 m)).
  { apply NoDup_incl_length; [constructor; [exact N|apply I]|]. intros y [<-|Y]; apply in_seq; [lia|]. pose proof (live_lt _ _ _ _ I Y). lia. }
  rewrite seq_length in Q. cbn [length] in Q. rewrite map_length in Q. lia.
Qed.

Lemma inv_le : forall max_ar t l, Inv max_ar t l -> length l <= max_ar.
Proof. intros m t l (_ & _ & O & (j & J) & _). rewrite J, app_length, map_length in O. lia. Qed.

Lemma first_free_spec : forall l k, k <= first_free l k <= k + length l /\
  (forall j e, j < first_free l k - k -> nth_error l j = Some e -> e_used e = true) /\
  (first_free l k < k + length l -> exists e, nth_error l (first_free l k - k) = Some e /\ e_used e = false).
Proof.
  induction l as [|e l IH]; intros k; cbn [first_free length].
  - repeat split; try (intros; lia).
  - destruct (e_used e) eqn:U.
    + destruct (IH (S k)) as (B & P & Q). repeat split; try lia.
      * intros j e0 H N. destruct j; cbn in N; [congruence|]. apply (P j); [lia|exact N].
      * intro H. destruct Q as (e0 & N & F); [lia|]. exists e0. split; [|exact F]. replace (first_free l (S k) - k) with (S (first_free l (S k) - S k)) by lia. exact N.
    + repeat split; try (intros; lia). intros _. rewrite Nat.sub_diag. exists e. split; [reflexivity|exact U].
Qed.

Lemma store_ok : forall A (l : list A) ix x, ix < length l -> store l ix x = Ok (replace_at l ix x).
Proof. intros A l ix x H. unfold store. destruct (Nat.ltb_spec ix (length l)); [reflexivity|lia]. Qed.

Lemma table0_inv : forall max_ar, Inv max_ar (table0 max_ar) [].
Proof.
  intro m. unfold Inv, table0. cbn [t_ars t_nbr t_order map length app]. rewrite !repeat_length. repeat split; try reflexivity.
  - exists (repeat 0 m). reflexivity.
  - constructor.
  - contradiction.
  - contradiction.
  - intros ix H _. apply nth_error_repeat. lia.
  - exists false, 0. apply (nth_error_repeat cleared). lia.
Qed.

Lemma allocate_inv : forall max_ar t l id, Inv max_ar t l -> exists t' r, allocate max_ar t id = Ok (t', r) /\ Inv max_ar t' (live1 max_ar l (STaken id r)) /\
  (r = None -> t' = t /\ length l = max_ar /\ exists id', nth_error (t_ars t) max_ar = Some (mkEntry true 0 id')) /\
  (forall ix, r = Some ix -> ix <= max_ar /\ ~ In ix (map fst l) /\ (forall j, j < ix -> In j (map fst l)) /\
     nth_error (t_ars t') ix = Some (mkEntry true (if ix <? max_ar then S ix else 0) id)).
Proof.
  intros m t l id I. pose proof I as (LA & NB & LO & (junk & J) & ND & IN & OUT & (u & sid & SP)).
  unfold allocate. destruct (first_free_spec (t_ars t) 0) as (B & P & Q). rewrite LA in *. set (ix := first_free (t_ars t) 0) in *. rewrite !Nat.sub_0_r in *. cbn [Nat.add] in *.
  assert (FR : forall j, j < ix -> j < m -> In j (map fst l)).
  { intros j H1 H2. destruct (in_dec Nat.eq_dec j (map fst l)) as [Y|N]; [exact Y|]. pose proof (P j _ H1 (OUT j H2 N)) as E. discriminate E. }
  destruct (Nat.ltb_spec ix (S m)).
  - destruct (Q H) as (e & NE & UE). assert (NI : ~ In ix (map fst l)).
    { intro Y. apply in_map_iff in Y. destruct Y as ((a, b) & Ea & Y). cbn in Ea. subst a. apply IN in Y. destruct Y as (_ & Y). rewrite NE in Y. injection Y as ->. discriminate UE. }
    destruct (Nat.ltb_spec ix m).
    + pose proof (inv_short _ _ _ _ I H0 NI) as SH. assert (EJ : exists y j2, junk = y :: j2).
      { destruct junk; [|eauto]. rewrite J, app_nil_r, map_length in LO. lia. }
      destruct EJ as (y & j2 & ->). rewrite store_ok by lia. cbn [obind]. rewrite store_ok by lia. cbn [obind]. eexists _, _. split; [reflexivity|]. split; [|split].
      * cbn [live1]. destruct (Nat.ltb_spec ix m); [|lia]. unfold Inv. cbn [t_ars t_nbr t_order]. rewrite !replace_length, map_app, app_length by lia. cbn [map fst length].
        split; [exact LA|]. split; [lia|]. split; [lia|]. split.
        { exists j2. unfold replace_at. rewrite J, NB. rewrite <- (map_length fst l). rewrite firstn_app, Nat.sub_diag, firstn_all. cbn [firstn]. rewrite app_nil_r.
          rewrite skipn_app, skipn_all2 by lia. replace (S (length (map fst l)) - length (map fst l)) with 1 by lia. cbn [skipn app]. rewrite <- app_assoc. reflexivity. }
        split. { apply NoDup_rev in ND. rewrite <- (rev_involutive (map fst l ++ [ix])). apply NoDup_rev. rewrite rev_app_distr. cbn [rev app]. constructor; [|exact ND]. rewrite <- in_rev. exact NI. }
        split.
        { intros a b Y. apply in_app_or in Y. destruct Y as [Y|[Y|[]]].
          - pose proof (IN _ _ Y) as (Y1 & Y2). split; [exact Y1|]. rewrite replace_other; [exact Y2|lia|]. intros ->. apply NI. apply in_map_iff. exists (a, b). auto.
          - injection Y as <- <-. split; [exact H0|]. apply replace_same. lia. }
        split.
        { intros a A1 A2. rewrite in_app_iff in A2. cbn [In] in A2. rewrite replace_other by (try lia; tauto). apply OUT; tauto. }
        { exists u, sid. rewrite replace_other by lia. exact SP. }
      * discriminate.
      * intros x E. injection E as <-. split; [lia|]. split; [exact NI|]. split; [intros j Hj; apply FR; lia|]. cbn [t_ars]. destruct (Nat.ltb_spec ix m); [|lia]. apply replace_same. lia.
    + rewrite store_ok by lia. cbn [obind]. eexists _, _. split; [reflexivity|]. assert (ix = m) by lia. split; [|split].
      * cbn [live1]. destruct (Nat.ltb_spec ix m); [lia|]. unfold Inv. cbn [t_ars t_nbr t_order]. rewrite !replace_length by lia.
        split; [exact LA|]. split; [exact NB|]. split; [exact LO|]. split; [exists junk; exact J|]. split; [exact ND|]. split.
        { intros a b Y. pose proof (IN _ _ Y) as (Y1 & Y2). split; [exact Y1|]. rewrite replace_other by lia. exact Y2. }
        split. { intros a A1 A2. rewrite replace_other by lia. apply OUT; assumption. }
        exists true, id. rewrite <- H1. apply replace_same. lia.
      * discriminate.
      * intros x E. injection E as <-. split; [lia|]. split; [exact NI|]. split; [intros j Hj; apply FR; lia|]. cbn [t_ars]. destruct (Nat.ltb_spec ix m); [lia|]. apply replace_same. lia.
  - eexists _, _. split; [reflexivity|]. split; [exact I|]. split; [|discriminate]. intros _. split; [reflexivity|]. assert (E : ix = S m) by lia. split.
    + apply Nat.le_antisymm; [eapply inv_le; exact I|]. rewrite <- (map_length fst l), <- (seq_length m 0). apply NoDup_incl_length; [apply seq_NoDup|]. intros j Y. apply in_seq in Y. apply FR; lia.
    + exists sid. pose proof (P m _ ltac:(lia) SP) as U. cbn in U. subst u. exact SP.
Qed.

Lemma search_found : forall a1 x a2 pre n, ~ In x a1 -> length a1 < n -> search (pre ++ a1 ++ x :: a2) x n (length pre) = Ok (Some (length pre + length a1)).
Proof.
  induction a1 as [|y a1 IH]; intros x a2 pre n N L; (destruct n as [|n]; [cbn in L; lia|]); cbn [search app length]; unfold load; rewrite nth_error_app2, Nat.sub_diag by lia; cbn [nth_error obind].
  - rewrite Nat.eqb_refl, Nat.add_0_r. reflexivity.
  - destruct (Nat.eqb_spec y x); [subst; exfalso; apply N; left; reflexivity|]. specialize (IH x a2 (pre ++ [y]) n). rewrite <- app_assoc in IH. cbn [app] in IH. rewrite app_length in IH. cbn [length] in IH.
    rewrite Nat.add_1_r in IH. rewrite IH; [f_equal; f_equal; lia| |cbn in L; lia]. intro Y. apply N. right. exact Y.
Qed.

Lemma move_spec : forall a2 a1 x j, exists z, move (a1 ++ x :: a2 ++ j) (length a2) (length a1) = Ok (a1 ++ a2 ++ z :: j).
Proof.
  induction a2 as [|y a2 IH]; intros a1 x j; cbn [move length app].
  - exists x. reflexivity.
  - unfold load. rewrite nth_error_app2 by lia. replace (S (length a1) - length a1) with 1 by lia. cbn [nth_error obind]. rewrite store_ok by (rewrite app_length; cbn [length]; lia). cbn [obind].
    unfold replace_at. rewrite firstn_app, Nat.sub_diag, firstn_all. cbn [firstn]. rewrite app_nil_r, skipn_app, skipn_all2 by lia. replace (S (length a1) - length a1) with 1 by lia. cbn [skipn app].
    destruct (IH (a1 ++ [y]) y j) as (z & E). rewrite <- app_assoc in E. cbn [app] in E. rewrite app_length in E. cbn [length] in E. rewrite Nat.add_1_r in E. exists z. rewrite E, <- app_assoc. reflexivity.
Qed.

Lemma filter_id : forall (l : list (nat * nat)) ix, ~ In ix (map fst l) -> filter (fun p => negb (fst p =? ix)) l = l.
Proof.
  induction l as [|(a, b) l IH]; intros ix N; cbn [filter fst]; [reflexivity|]. destruct (Nat.eqb_spec a ix); cbn [negb]; [exfalso; apply N; left; exact e|]. f_equal. apply IH. intro Y. apply N. right. exact Y.
Qed.

Lemma release_inv : forall max_ar t l ix, Inv max_ar t l -> exists t', release t ix = Ok t' /\ Inv max_ar t' (live1 max_ar l (SGiven ix)).
Proof.
  intros m t l ix I. pose proof I as (LA & NB & LO & (junk & J) & ND & IN & OUT & (u & sid & SP)). unfold release. cbn [live1].
  destruct (in_dec Nat.eq_dec ix (map fst l)) as [Y|N].
  - apply in_map_iff in Y. destruct Y as ((a, id) & E & Y). cbn in E. subst a. pose proof (IN _ _ Y) as (LT & NE). rewrite NE. cbn [e_used e_arep]. destruct (Nat.ltb_spec 0 (S ix)); [|lia].
    replace (S ix - 1) with ix by lia. destruct (in_split _ _ Y) as (l1 & l2 & EL). subst l. rewrite map_app in *. cbn [map fst] in *.
    assert (N1 : ~ In ix (map fst l1) /\ ~ In ix (map fst l2)). { apply NoDup_remove_2 in ND. rewrite in_app_iff in ND. tauto. } destruct N1 as (N1 & N2).
    rewrite app_length in NB. cbn [length] in NB. rewrite J, <- app_assoc. cbn [app].
    pose proof (search_found (map fst l1) ix (map fst l2 ++ junk) [] (t_nbr t) N1) as S1. cbn [app length] in S1. rewrite S1 by (rewrite map_length; lia). cbn [obind Nat.add].
    destruct (move_spec (map fst l2) (map fst l1) ix junk) as (z & MV). replace (t_nbr t - 1 - length (map fst l1)) with (length (map fst l2)) by (rewrite !map_length; lia). rewrite MV. cbn [obind].
    rewrite store_ok by lia. cbn [obind fst snd]. eexists. split; [reflexivity|].
    assert (FL : filter (fun p : nat * nat => negb (fst p =? ix)) (l1 ++ (ix, id) :: l2) = l1 ++ l2).
    { rewrite filter_app. cbn [filter fst]. rewrite Nat.eqb_refl. cbn [negb]. rewrite !filter_id by assumption. reflexivity. }
    rewrite FL. unfold Inv. cbn [t_ars t_nbr t_order]. rewrite replace_length, map_app, app_length by lia.
    split; [exact LA|]. split; [lia|]. split. { rewrite J in LO. rewrite !app_length in *. cbn [length] in *. lia. }
    split. { exists (z :: junk). rewrite app_assoc. reflexivity. }
    split. { apply NoDup_remove_1 in ND. exact ND. }
    split.
    { intros a b Q. assert (Q2 : In (a, b) (l1 ++ (ix, id) :: l2)). { rewrite in_app_iff in *. cbn [In]. tauto. }
      destruct (IN _ _ Q2) as (Q3 & Q4). split; [exact Q3|]. rewrite replace_other; [exact Q4|lia|]. intros ->. apply NoDup_remove_2 in ND. apply ND. rewrite <- map_app. apply in_map_iff. exists (a, b). auto. }
    split.
    { intros a A1 A2. destruct (Nat.eq_dec a ix) as [->|D]; [apply replace_same; lia|]. rewrite replace_other by (try lia; congruence). apply OUT; [exact A1|]. rewrite in_app_iff in *. cbn [In]. intros [Q|[Q|Q]]; [tauto|congruence|tauto]. }
    exists u, sid. rewrite replace_other by lia. exact SP.
  - rewrite filter_id by exact N. destruct (Nat.lt_ge_cases ix m) as [H|H].
    + rewrite (OUT ix H N). cbn [e_used cleared]. eexists. split; [reflexivity|exact I].
    + destruct (Nat.eq_dec ix m) as [->|D].
      * rewrite SP. cbn [e_used e_arep]. destruct u; [|eexists; split; [reflexivity|exact I]]. rewrite Nat.ltb_irrefl. cbn [obind]. rewrite store_ok by lia. cbn [obind fst snd]. eexists. split; [reflexivity|].
        unfold Inv. cbn [t_ars t_nbr t_order]. rewrite replace_length by lia. split; [exact LA|]. split; [exact NB|]. split; [exact LO|]. split; [exists junk; exact J|]. split; [exact ND|]. split.
        { intros a b Y. pose proof (IN _ _ Y) as (Y1 & Y2). split; [exact Y1|]. rewrite replace_other by lia. exact Y2. }
        split. { intros a A1 A2. rewrite replace_other by lia. apply OUT; assumption. }
        exists false, 0. apply replace_same. lia.
      * rewrite (proj2 (nth_error_None _ _)) by lia. eexists. split; [reflexivity|exact I].
Qed.

Lemma run_inv : forall max_ar ops t l, Inv max_ar t l -> exists t' tr, run max_ar t ops = Ok (t', tr) /\ Inv max_ar t' (fold_left (live1 max_ar) tr l).
Proof.
  intros m ops. induction ops as [|o ops IH]; intros t l I; cbn [run].
  - exists t, []. split; [reflexivity|exact I].
  - destruct o as [id|ix]; cbn [step].
    + destruct (allocate_inv m t l id I) as (t1 & r & E & I1 & _). rewrite E. cbn [obind fst snd]. destruct (IH _ _ I1) as (t2 & tr & E2 & I2). rewrite E2. cbn [obind fst snd]. eexists _, _. split; [reflexivity|]. exact I2.
    + destruct (release_inv m t l ix I) as (t1 & E & I1). rewrite E. cbn [obind fst snd]. destruct (IH _ _ I1) as (t2 & tr & E2 & I2). rewrite E2. cbn [obind fst snd]. eexists _, _. split; [reflexivity|]. exact I2.
Qed.

Lemma run_live : forall max_ar ops t tr, run max_ar (table0 max_ar) ops = Ok (t, tr) -> Inv max_ar t (live max_ar tr).
Proof. intros m ops t tr R. destruct (run_inv m ops _ _ (table0_inv m)) as (t' & tr' & E & I). rewrite R in E. injection E as <- <-. exact I. Qed.

(** * Theorems *)

(** Whatever was taken and given back, nothing outside of the arrays was touched. *)
Theorem C133_safe : forall max_ar ops, exists t tr, run max_ar (table0 max_ar) ops = Ok (t, tr).
Proof. intros m ops. destruct (run_inv m ops _ _ (table0_inv m)) as (t & tr & E & _). eauto. Qed.
Print Assumptions C133_safe.

(** The list in which the device visits its connections has each of them once, in the order in which
    they were made; each has its own handle. *)
Theorem C133_order : forall max_ar ops t tr, run max_ar (table0 max_ar) ops = Ok (t, tr) ->
  t_nbr t = length (live max_ar tr) /\ firstn (t_nbr t) (t_order t) = map fst (live max_ar tr) /\ NoDup (map fst (live max_ar tr)) /\
  forall ix id, In (ix, id) (live max_ar tr) -> nth_error (t_ars t) ix = Some (mkEntry true (S ix) id).
Proof.
  intros m ops t tr R. pose proof (run_live _ _ _ _ R) as (LA & NB & LO & (junk & J) & ND & IN & _). split; [exact NB|]. split; [|split; [exact ND|intros ix id H; apply IN; exact H]].
  rewrite J, NB, <- (map_length fst). rewrite firstn_app, Nat.sub_diag, firstn_all. cbn [firstn]. apply app_nil_r.
Qed.
Print Assumptions C133_order.

(** A handle finds the connection that was given it, while there is one, and nothing else.  Missing
    for all handles of 32 bits: C133_far_refuted. *)
Theorem C133_found_partial : forall max_ar ops t tr arep ix, run max_ar (table0 max_ar) ops = Ok (t, tr) ->
  (0 <= arep <= 65536)%Z -> arep <> (Z.of_nat max_ar + 1)%Z ->
  find_by_arep t arep = Some ix <-> (exists id, In (ix, id) (live max_ar tr)) /\ arep = (Z.of_nat ix + 1)%Z.
Proof.
  intros m ops t tr arep ix R A D. pose proof (run_live _ _ _ _ R) as (LA & NB & LO & (junk & J) & ND & IN & OUT & (u & sid & SP)). unfold find_by_arep. split.
  - destruct (Z.ltb_spec 0 arep); [|discriminate]. rewrite Z.mod_small by lia. destruct (nth_error (t_ars t) (Z.to_nat (arep - 1))) as [e|] eqn:E; [|discriminate].
    destruct (e_used e) eqn:U; [|discriminate]. intro Q. injection Q as <-. split; [|lia].
    assert (LT : Z.to_nat (arep - 1) < S m). { rewrite <- LA. apply nth_error_Some. congruence. }
    destruct (in_dec Nat.eq_dec (Z.to_nat (arep - 1)) (map fst (live m tr))) as [Y|N].
    + apply in_map_iff in Y. destruct Y as ((a, b) & Ea & Y). cbn in Ea. subst a. eauto.
    + rewrite OUT in E by (try exact N; lia). injection E as <-. discriminate U.
  - intros ((id & H) & ->). destruct (Z.ltb_spec 0 (Z.of_nat ix + 1)); [|lia]. rewrite Z.mod_small by lia. replace (Z.to_nat (Z.of_nat ix + 1 - 1)) with ix by lia.
    destruct (IN _ _ H) as (_ & E). rewrite E. reflexivity.
Qed.
Print Assumptions C133_found_partial.

(** A connect request gets the first free place and the handle of it; if there is none, it gets the
    spare entry, without a handle; only if this is in use too, it gets nothing. *)
Theorem C133_taken : forall max_ar ops t tr id t' r, run max_ar (table0 max_ar) ops = Ok (t, tr) -> allocate max_ar t id = Ok (t', r) ->
  match r with
  | Some ix =>
      nth_error (t_ars t') ix = Some (mkEntry true (if ix <? max_ar then S ix else 0) id) /\
      (if ix <? max_ar then ~ In ix (map fst (live max_ar tr)) /\ forall j, j < ix -> In j (map fst (live max_ar tr))
       else ix = max_ar /\ length (live max_ar tr) = max_ar)
  | None => t' = t /\ length (live max_ar tr) = max_ar /\ exists id', nth_error (t_ars t) max_ar = Some (mkEntry true 0 id')
  end.
Proof.
  intros m ops t tr id t' r R A. pose proof (run_live _ _ _ _ R) as I. destruct (allocate_inv m t _ id I) as (t1 & r1 & E & _ & N & S1). rewrite A in E. injection E as <- <-. destruct r as [ix|]; [|apply N; reflexivity].
  destruct (S1 ix eq_refl) as (L & NI & FR & E). split; [exact E|]. destruct (Nat.ltb_spec ix m); [split; assumption|]. assert (ix = m) by lia. subst ix. split; [reflexivity|].
  apply Nat.le_antisymm; [eapply inv_le; exact I|]. assert (Q : length (seq 0 m) <= length (map fst (live m tr))); [|rewrite seq_length, map_length in Q; exact Q]. apply NoDup_incl_length; [apply seq_NoDup|]. intros j Y. apply in_seq in Y. apply FR. lia.
Qed.
Print Assumptions C133_taken.

(** Three requests in a table for two, the first one ends, a fourth comes. *)
Definition ex_ops : list op := [OTake 11; OTake 12; OTake 13; OGive 2; OGive 0; OTake 14].
Example C133_example : exists t tr, run 2 (table0 2) ex_ops = Ok (t, tr) /\ live 2 tr = [(1, 12); (0, 14)] /\ t_order t = [1; 0] /\
  find_by_arep t 1 = Some 0 /\ find_by_arep t 2 = Some 1 /\ find_by_arep t 3 = None /\ find_by_arep t 0 = None.
Proof. eexists _, _. split; [vm_compute; reflexivity|]. repeat split; vm_compute; reflexivity. Qed.
Print Assumptions C133_example.

(** A handle that was never given finds a connection: the index is cut to 16 bits. *)
Theorem C133_far_refuted : ~ (forall max_ar ops t tr arep ix, run max_ar (table0 max_ar) ops = Ok (t, tr) -> (0 <= arep < 2 ^ 32)%Z ->
  find_by_arep t arep = Some ix -> arep = (Z.of_nat ix + 1)%Z).
Proof.
  intro H. assert (E : exists t tr, run 1 (table0 1) [OTake 5] = Ok (t, tr) /\ find_by_arep t 65537 = Some 0). { eexists _, _. split; vm_compute; reflexivity. }
  destruct E as (t & tr & R & F). specialize (H _ _ _ _ 65537%Z _ R ltac:(lia) F). discriminate H.
Qed.
Print Assumptions C133_far_refuted.

(** The handle of a connection that has ended finds the one that was made after it. *)
Theorem C133_stale_refuted : ~ (forall max_ar ops ops' t tr t' tr' arep ix id, run max_ar (table0 max_ar) ops = Ok (t, tr) -> run max_ar t ops' = Ok (t', tr') ->
  find_by_arep t arep = Some ix -> In (ix, id) (live max_ar tr) -> In (SGiven ix) tr' -> find_by_arep t' arep = None).
Proof.
  intro H. assert (E : exists t tr t' tr', run 1 (table0 1) [OTake 5] = Ok (t, tr) /\ run 1 t [OGive 0; OTake 6] = Ok (t', tr') /\ find_by_arep t 1 = Some 0 /\ In (0, 5) (live 1 tr) /\ In (SGiven 0) tr' /\ find_by_arep t' 1 = Some 0).
  { eexists _, _, _, _. split; [vm_compute; reflexivity|]. split; [vm_compute; reflexivity|]. split; [vm_compute; reflexivity|]. split; [left; reflexivity|]. split; [left; reflexivity|]. vm_compute. reflexivity. }
  destruct E as (t & tr & t' & tr' & R & R' & F & L & G & F'). rewrite (H _ _ _ _ _ _ _ _ _ _ R R' F L G) in F'. discriminate F'.
Qed.
Print Assumptions C133_stale_refuted.

(** While the spare entry is in use (only inside of the handling of a connect request that will be
    refused), the number after the last handle finds it, although it has the handle 0. *)
Example C133_spare : exists t tr, run 1 (table0 1) [OTake 5; OTake 6] = Ok (t, tr) /\ find_by_arep t 2 = Some 1 /\ nth_error (t_ars t) 1 = Some (mkEntry true 0 6) /\ live 1 tr = [(0, 5)].
Proof. eexists _, _. split; [vm_compute; reflexivity|]. repeat split; vm_compute; reflexivity. Qed.
Print Assumptions C133_spare.
