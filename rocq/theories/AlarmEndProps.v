(** C59: alarm frames reach the connection they are addressed to. *)
From Coq Require Import List Arith Bool Lia.
From Verif Require Import Base AlarmEndModel.
Import ListNotations.
Set Implicit Arguments.

Lemma first_some : forall max f i, first max f = Some i -> i < max /\ f i = true.
Proof. intros max f i H. apply find_some in H. destruct H as (H & F). apply in_seq in H. split; [lia|auto]. Qed.
Lemma first_none : forall max f i, first max f = None -> i < max -> f i = false.
Proof. intros max f i H L. apply (find_none _ _ H). apply in_seq. lia. Qed.
Lemma eqo_spec : forall a b, eqo a b = true <-> a = b.
Proof.
  intros [x|] [y|]; cbn; try (split; congruence). rewrite Nat.eqb_eq. split; congruence.
Qed.

(** What holds in any case: the entry of an established connection belongs to
    its place, unless there was no entry left. *)
Definition kept (max : nat) (s : est) : Prop :=
  forall slot r, e_conn s slot = Some r -> slot < max /\
    (r = 0 \/ (0 < r <= max /\ e_ar s (r - 1) = Some slot)).

(** The owner of an entry is the place of a connection; it changes only when an
    entry is allocated or freed. *)
Lemma mark_ar : forall max v slot s, e_ar (mark max v slot s) = e_ar s.
Proof. intros. unfold mark. destruct (first _ _); reflexivity. Qed.
Lemma mark_conn : forall max v slot s, e_conn (mark max v slot s) = e_conn s.
Proof. intros. unfold mark. destruct (first _ _); reflexivity. Qed.
Lemma allocate_ar : forall max slot s r s', allocate max slot s = (r, s') ->
  e_conn s' = e_conn s /\
  ((r = 0 /\ s' = s) \/ (0 < r <= max /\ e_ar s (r - 1) = None /\ e_ar s' = upd (e_ar s) (r - 1) (Some slot) /\
     e_active s' = upd (e_active s) (r - 1) false)).
Proof.
  intros max slot s r s' H. unfold allocate in H. destruct (first max _) as [i|] eqn:E; injection H as <- <-; [|auto].
  apply first_some in E. destruct E as (L & E). apply eqo_spec in E. cbn. split; [reflexivity|]. right.
  rewrite Nat.sub_0_r. repeat split; auto; lia.
Qed.

Lemma kept_allocate : forall max slot s, kept max s -> kept max (snd (allocate max slot s)).
Proof.
  intros max slot s K. destruct (allocate max slot s) as [r s'] eqn:E. apply allocate_ar in E. cbn [snd].
  destruct E as (Ec & [(_ & ->)|(R & N & Ea & _)]); auto.
  intros q x H. rewrite Ec in H. destruct (K q x H) as (K1 & [K2|(K2 & K3)]); split; auto.
  right. split; auto. rewrite Ea. unfold upd. destruct (Nat.eqb_spec (x - 1) (r - 1)) as [X|X]; [|auto].
  rewrite X in K3. congruence.
Qed.
Lemma kept_mark : forall max v slot s, kept max s -> kept max (mark max v slot s).
Proof. intros max v slot s K q r H. rewrite mark_conn in H. rewrite mark_ar. now apply K. Qed.

Lemma kept_step : forall max e s, kept max s -> kept max (estep max e s).
Proof.
  intros max e s K. destruct e as [slot ph|slot]; cbn [estep].
  - destruct (Nat.ltb_spec slot max) as [L|L]; auto. destruct (e_conn s slot) eqn:Ec; auto.
    pose proof (kept_allocate slot K) as Ka.
    destruct ph; auto using kept_mark.
    destruct (allocate max slot s) as [r s'] eqn:E. cbn [snd] in Ka. apply allocate_ar in E. destruct E as (E1 & E2).
    intros q x H. cbn [setconn e_conn e_ar] in H |- *. rewrite mark_ar. unfold upd in H.
    destruct (Nat.eqb_spec q slot) as [->|Q]; [|apply Ka; now rewrite mark_conn in H].
    injection H as <-. split; auto.
    destruct E2 as [(-> & _)|(R & N & Ea & _)]; auto. right. split; auto. rewrite Ea. unfold upd. now rewrite Nat.eqb_refl.
  - destruct (e_conn s slot) as [r0|] eqn:Ec; auto.
    intros q x H. cbn [setconn e_conn e_ar] in H |- *. unfold upd in H. destruct (Nat.eqb_spec q slot) as [->|Q]; [discriminate|].
    unfold free_endpoint in *. rewrite mark_ar in *. destruct (first max _) as [i|] eqn:E; cbn [e_conn e_ar] in *;
      rewrite ?mark_conn in H; destruct (K q x H) as (K1 & [K2|(K2 & K3)]); split; auto; right; split; auto.
    + apply first_some in E. destruct E as (L & E). apply eqo_spec in E. unfold upd.
      destruct (Nat.eqb_spec (x - 1) i) as [X|X]; [|auto]. subst i. congruence.
    + now rewrite mark_ar.
Qed.

Lemma kept_run : forall max es s, kept max s -> kept max (erun max es s).
Proof. induction es as [|e es IH]; intros s K; cbn; auto using kept_step. Qed.
Lemma kept_reach : forall max es, kept max (erun max es est0).
Proof. intros. apply kept_run. intros q r H. discriminate. Qed.

(** Whatever requests were refused or failed: a frame with the reference that
    was announced to an established connection goes to no other connection, and
    no two established connections have the same reference (except 0, if none
    was left). *)
Theorem C59_never_other_partial : forall max es slot r, let s := erun max es est0 in
  e_conn s slot = Some r ->
  (deliver max r s = Some slot \/ deliver max r s = None) /\
  forall slot', e_conn s slot' = Some r -> r <> 0 -> slot' = slot.
Proof.
  intros max es slot r s H. destruct (@kept_reach max es slot r H) as (K1 & K2). split.
  - unfold deliver. destruct (_ && _ && _) eqn:E; auto.
    destruct K2 as [->|(K2 & K3)]; [discriminate|]. fold s in K3. rewrite K3. auto.
  - intros q Hq N. destruct (@kept_reach max es q r Hq) as (_ & Q2). destruct K2 as [K2|(_ & K3)]; [lia|].
    destruct Q2 as [Q2|(_ & Q3)]; [lia|]. congruence.
Qed.

(** No request fails once an endpoint is allocated. *)
Definition no_leak (e : einput) : Prop :=
  match e with EConnect _ Refused | EConnect _ Failed => False | _ => True end.

Definition exact (max : nat) (s : est) : Prop :=
  (forall i, i < max -> match e_ar s i with
              | Some slot => slot < max /\ e_conn s slot = Some (S i) /\ e_active s i = true
              | None => True
              end) /\
  (forall slot r, e_conn s slot = Some r -> slot < max /\ 0 < r <= max /\ e_ar s (r - 1) = Some slot).

(** Pigeonhole: a place without a connection leaves an entry free. *)
Lemma exact_room : forall max s slot, exact max s -> slot < max -> e_conn s slot = None ->
  exists i, i < max /\ e_ar s i = None.
Proof.
  intros max s slot (X1 & X2) L N.
  destruct (first max (fun i => eqo (e_ar s i) None)) as [i|] eqn:E.
  { apply first_some in E. rewrite eqo_spec in E. eauto. }
  exfalso.
  assert (A : forall i, i < max -> exists q, e_ar s i = Some q).
  { intros i Li. pose proof (first_none _ E Li) as F. cbn in F. destruct (e_ar s i); [eauto|discriminate]. }
  pose (f := fun i => match e_ar s i with Some q => q | None => 0 end).
  assert (ND : NoDup (slot :: map f (seq 0 max))).
  { constructor.
    - intros H. apply in_map_iff in H. destruct H as (i & Hi & Hs). apply in_seq in Hs.
      destruct (A i ltac:(lia)) as (q & Hq). unfold f in Hi. rewrite Hq in Hi. subst q.
      specialize (X1 i ltac:(lia)). rewrite Hq in X1. destruct X1 as (_ & X & _). congruence.
    - assert (G : forall l, (forall i, In i l -> i < max) -> NoDup l -> NoDup (map f l)).
      { induction l as [|i l IH]; intros B D; cbn; [constructor|]. inversion D; subst. constructor.
        - intros H. apply in_map_iff in H. destruct H as (j & Hj & Hl).
          destruct (A i (B i (or_introl eq_refl))) as (q & Hq), (A j (B j (or_intror Hl))) as (q' & Hq').
          unfold f in Hj. rewrite Hq, Hq' in Hj. subst q'.
          pose proof (X1 i (B i (or_introl eq_refl))) as Y1. pose proof (X1 j (B j (or_intror Hl))) as Y2.
          rewrite Hq in Y1. rewrite Hq' in Y2. destruct Y1 as (_ & Y1 & _), Y2 as (_ & Y2 & _). congruence.
        - apply IH; auto. intros j Hj. apply B. now right. }
      apply G; [|apply seq_NoDup]. intros i Hi. apply in_seq in Hi. lia. }
  assert (I : incl (slot :: map f (seq 0 max)) (seq 0 max)).
  { intros q [<-|H]; [apply in_seq; lia|]. apply in_map_iff in H. destruct H as (i & Hi & Hs). apply in_seq in Hs.
    destruct (A i ltac:(lia)) as (q' & Hq). unfold f in Hi. rewrite Hq in Hi. subst q'.
    specialize (X1 i ltac:(lia)). rewrite Hq in X1. apply in_seq. lia. }
  apply NoDup_incl_length in I; auto. cbn in I. rewrite map_length, seq_length in I. lia.
Qed.

Lemma exact_first : forall max s slot i, exact max s -> e_conn s slot = Some (S i) -> i < max ->
  first max (fun j => eqo (e_ar s j) (Some slot)) = Some i.
Proof.
  intros max s slot i (X1 & X2) H L. destruct (X2 _ _ H) as (_ & _ & X). rewrite Nat.sub_succ, Nat.sub_0_r in X.
  destruct (first max _) as [j|] eqn:E.
  - apply first_some in E. destruct E as (Lj & E). apply eqo_spec in E. pose proof (X1 j Lj) as Y. rewrite E in Y.
    destruct Y as (_ & Y & _). congruence.
  - pose proof (first_none _ E L) as F. cbn in F. rewrite X in F. cbn in F. now rewrite Nat.eqb_refl in F.
Qed.

Lemma exact_step : forall max e s, exact max s -> no_leak e -> exact max (estep max e s).
Proof.
  intros max e s X Hn. pose proof X as (X1 & X2). destruct e as [slot ph|slot]; cbn [estep].
  - destruct (Nat.ltb_spec slot max) as [L|L]; auto. destruct (e_conn s slot) eqn:Ec; auto.
    destruct ph; cbn in Hn; try contradiction; auto.
    destruct (exact_room X L Ec) as (i0 & Li0 & Ei0).
    destruct (allocate max slot s) as [r s'] eqn:E.
    assert (R0 : r <> 0).
    { unfold allocate in E. destruct (first max _) as [i|] eqn:E0; injection E as <- <-; [lia|].
      pose proof (first_none _ E0 Li0) as F. cbn in F. rewrite Ei0 in F. discriminate. }
    apply allocate_ar in E. destruct E as (E1 & [(E2 & _)|(R & N & Ea & Eb)]); [lia|].
    assert (Fi : first max (fun j => eqo (e_ar s' j) (Some slot)) = Some (r - 1)).
    { destruct (first max _) as [j|] eqn:F.
      - apply first_some in F. destruct F as (Lj & F). apply eqo_spec in F. rewrite Ea in F. unfold upd in F.
        destruct (Nat.eqb_spec j (r - 1)) as [J|J]; [now subst|]. pose proof (X1 j Lj) as Y. rewrite F in Y.
        destruct Y as (_ & Y & _). congruence.
      - assert (Lr : r - 1 < max) by lia. pose proof (first_none _ F Lr) as G. cbn in G. rewrite Ea in G. unfold upd in G.
        rewrite Nat.eqb_refl in G. cbn in G. now rewrite Nat.eqb_refl in G. }
    unfold mark. rewrite Fi. split; cbn.
    + intros i Li. rewrite Ea, Eb, E1. unfold upd. destruct (Nat.eqb_spec i (r - 1)) as [->|J].
      * rewrite Nat.eqb_refl. replace (S (r - 1)) with r by lia. auto.
      * specialize (X1 i Li). destruct (e_ar s i) as [q|]; auto. destruct X1 as (Y1 & Y2 & Y3).
        destruct (Nat.eqb_spec q slot) as [->|Q]; [congruence|auto].
    + intros q x H. rewrite E1 in H. rewrite Ea. unfold upd in *. destruct (Nat.eqb_spec q slot) as [->|Q].
      * injection H as <-. rewrite Nat.eqb_refl. auto.
      * destruct (X2 q x H) as (Y1 & Y2 & Y3). destruct (Nat.eqb_spec (x - 1) (r - 1)) as [J|J]; [|auto].
        rewrite J in Y3. congruence.
  - destruct (e_conn s slot) as [r0|] eqn:Ec; auto.
    destruct (X2 _ _ Ec) as (L & R & A). destruct r0 as [|i]; [lia|]. rewrite Nat.sub_succ, Nat.sub_0_r in A.
    assert (Li : i < max) by lia. pose proof (@exact_first max s slot i X Ec Li) as Fi.
    unfold free_endpoint. rewrite mark_ar, Fi. unfold mark. rewrite Fi. split; cbn.
    + intros j Lj. unfold upd. destruct (Nat.eqb_spec j i) as [->|J]; auto. specialize (X1 j Lj).
      destruct (e_ar s j) as [q|] eqn:Ej; auto. destruct X1 as (Y1 & Y2 & Y3).
      destruct (Nat.eqb_spec q slot) as [->|Q]; [congruence|auto].
    + intros q x H. unfold upd in *. destruct (Nat.eqb_spec q slot) as [->|Q]; [discriminate|].
      destruct (X2 q x H) as (Y1 & Y2 & Y3). destruct (Nat.eqb_spec (x - 1) i) as [J|J]; [|auto].
      rewrite J in Y3. congruence.
Qed.

(** If no request fails after its endpoint was allocated then each established
    connection has a reference, and a frame with it reaches that connection. *)
Theorem C59_partial : forall max es slot r, Forall no_leak es -> let s := erun max es est0 in
  e_conn s slot = Some r -> r <> 0 /\ deliver max r s = Some slot.
Proof.
  intros max es slot r F s H.
  assert (X : exact max s).
  { unfold s. assert (G : forall es s, Forall no_leak es -> exact max s -> exact max (erun max es s)).
    { clear. induction es as [|e es IH]; intros s F X; cbn; auto. inversion F; subst. apply IH; auto. now apply exact_step. }
    apply G; auto. split; [intros; exact I|discriminate]. }
  destruct X as (X1 & X2). destruct (X2 slot r H) as (L & R & A). split; [lia|].
  assert (Lr : r - 1 < max) by lia. pose proof (X1 _ Lr) as Y. rewrite A in Y. destruct Y as (_ & _ & Y).
  unfold deliver. rewrite Y, A. destruct (Nat.ltb_spec 0 r); [|lia]. destruct (Nat.leb_spec r max); [|lia]. reflexivity.
Qed.

Example C59_case :
  let es := [EConnect 0 Established; EConnect 1 Early; EConnect 1 Established; EEnd 0; EConnect 0 Established] in
  Forall no_leak es /\ e_conn (erun 2 es est0) 0 = Some 1 /\ e_conn (erun 2 es est0) 1 = Some 2.
Proof. repeat split; repeat constructor. Qed.

(** One refused request: the next connection in that place is told a reference
    whose frames are dropped. *)
Theorem C59_refuted : exists max es slot r, let s := erun max es est0 in
  e_conn s slot = Some r /\ r <> 0 /\ deliver max r s = None.
Proof. exists 2, [EConnect 0 Refused; EConnect 0 Established], 0, 2. cbn. repeat split. discriminate. Qed.

(** After as many refused requests as there are entries no connection gets a
    reference. *)
Lemma find_app : forall (f : nat -> bool) l r, (forall x, In x l -> f x = false) -> find f (l ++ r) = find f r.
Proof.
  induction l as [|x l IH]; intros r H; cbn; auto. rewrite (H x (or_introl eq_refl)). apply IH. intros y Hy. apply H. now right.
Qed.
Lemma first_is : forall max f n, n < max -> (forall i, i < n -> f i = false) -> f n = true -> first max f = Some n.
Proof.
  intros max f n L H E. unfold first. replace max with (n + S (max - n - 1)) by lia. rewrite seq_app, find_app.
  - cbn. now rewrite E.
  - intros x Hx. apply in_seq in Hx. apply H. lia.
Qed.

Theorem C59_exhausted_refuted : forall max, 0 < max ->
  e_conn (erun max (repeat (EConnect 0 Refused) max ++ [EConnect 0 Established]) est0) 0 = Some 0.
Proof.
  intros max L.
  assert (A : forall es es' s, erun max (es ++ es') s = erun max es' (erun max es s)).
  { induction es as [|e es IH]; intros es' s; cbn; auto. }
  assert (G : forall n s k, n + k <= max -> (forall i, e_ar s i = if i <? k then Some 0 else None) -> e_conn s 0 = None ->
    let s' := erun max (repeat (EConnect 0 Refused) n) s in
    (forall i, e_ar s' i = if i <? n + k then Some 0 else None) /\ e_conn s' 0 = None).
  { induction n as [|n IH]; intros s k Hk H1 H2; [split; auto|]. cbn [repeat erun].
    replace (S n + k) with (n + S k) by lia. apply IH; [lia| |].
    - intros i. cbn [estep]. destruct (Nat.ltb_spec 0 max); [|lia]. rewrite H2. unfold allocate.
      rewrite (@first_is max _ k); [|lia| |].
      + cbn [snd e_ar]. unfold upd. rewrite H1.
        destruct (Nat.eqb_spec i k), (Nat.ltb_spec i k), (Nat.ltb_spec i (S k)); auto; lia.
      + intros j Hj. rewrite H1. destruct (Nat.ltb_spec j k); [reflexivity|lia].
      + rewrite H1, Nat.ltb_irrefl. reflexivity.
    - cbn [estep]. destruct (Nat.ltb_spec 0 max); [|lia]. rewrite H2. unfold allocate. destruct (first _ _); auto. }
  rewrite A. destruct (G max est0 0 ltac:(lia) (fun _ => eq_refl) eq_refl) as (G1 & G2). rewrite Nat.add_0_r in G1.
  set (s := erun max (repeat (EConnect 0 Refused) max) est0) in *. cbn [erun estep].
  destruct (Nat.ltb_spec 0 max); [|lia]. rewrite G2. unfold allocate.
  destruct (first max _) as [i|] eqn:F.
  - apply first_some in F. destruct F as (Li & F). rewrite G1 in F. destruct (Nat.ltb_spec i max); [discriminate|lia].
  - cbn. reflexivity.
Qed.

Print Assumptions C59_never_other_partial.
Print Assumptions C59_partial.
Print Assumptions C59_refuted.
Print Assumptions C59_exhausted_refuted.
