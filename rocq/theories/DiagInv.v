(** Invariant of the diagnosis store. *)

From Coq Require Import List Arith Bool ZArith Lia.
From Verif Require Import Base DiagModel DiagLists DiagSpec.
Import ListNotations.
Set Implicit Arguments.
Open Scope nat_scope.

(** ** Channel properties *)
Definition small (n : Z) : list Z := map Z.of_nat (seq 0 (Z.to_nat n)).
Lemma in_small : forall n z, (0 <= z < n)%Z -> In z (small n).
Proof.
  intros n z H. unfold small. apply in_map_iff. exists (Z.to_nat z).
  split; [lia|]. apply in_seq. lia.
Qed.

Lemma props_cases : forallb (fun b => forallb (fun g => forallb (fun s => forallb (fun d =>
  let p := new_props (mkSrc (0, 0, 0)%Z 0 g d) b s in
  (p =? props b g s 1 d)%Z && (acc_get p =? g)%Z && (p_group p =? g)%Z
  && (dir_get p =? d)%Z && (p_dir p =? d)%Z && (maint_get p =? s)%Z && (p_maint p =? s)%Z
  && (spec_get p =? 1)%Z && (spec_set 1 p =? p)%Z)
  (small 8)) (small 4)) (small 2)) (small 8) = true.
Proof. vm_compute. reflexivity. Qed.

Definition in_range (b g s d : Z) : Prop :=
  (0 <= b <= 7 /\ 0 <= g <= 1 /\ 0 <= s <= 3 /\ 0 <= d <= 7)%Z.

Lemma new_props_fields : forall src b s,
  in_range b (s_group src) s (s_dir src) ->
  let p := new_props src b s in
  p = props b (s_group src) s 1 (s_dir src) /\
  acc_get p = s_group src /\ p_group p = s_group src /\
  dir_get p = s_dir src /\ p_dir p = s_dir src /\
  maint_get p = s /\ p_maint p = s /\ spec_get p = 1%Z /\ spec_set 1 p = p.
Proof.
  intros [k c g d] b s (Hb & Hg & Hs & Hd). cbn [s_group s_dir] in *. cbv zeta.
  pose proof props_cases as P.
  rewrite forallb_forall in P. specialize (P b (@in_small 8 b ltac:(lia))).
  rewrite forallb_forall in P. specialize (P g (@in_small 2 g ltac:(lia))).
  rewrite forallb_forall in P. specialize (P s (@in_small 4 s ltac:(lia))).
  rewrite forallb_forall in P. specialize (P d (@in_small 8 d ltac:(lia))).
  change (new_props (mkSrc k c g d) b s) with (new_props (mkSrc (0, 0, 0)%Z 0 g d) b s).
  cbv zeta in P. set (p := new_props (mkSrc (0, 0, 0)%Z 0 g d) b s) in *. clearbody p.
  repeat (apply andb_true_iff in P; destruct P as [P ?]).
  repeat match goal with H : (_ =? _)%Z = true |- _ => apply Z.eqb_eq in H end.
  repeat split; assumption.
Qed.

(** Channel properties of a stored standard diagnosis. *)
Definition good_props (p : Z) : Prop :=
  exists b g s d, in_range b g s d /\ p = props b g s 1 d.

Lemma good_fields : forall p, good_props p ->
  acc_get p = p_group p /\ dir_get p = p_dir p /\ maint_get p = p_maint p /\
  spec_get p = 1%Z /\ spec_set 1 p = p.
Proof.
  intros p (b & g & s & d & R & ->).
  destruct (@new_props_fields (mkSrc (0, 0, 0)%Z 0 g d) b s R)
    as (E & A1 & A2 & A3 & A4 & A5 & A6 & A7 & A8).
  cbn [s_group s_dir] in *. rewrite E in *. repeat split; congruence.
Qed.

Lemma spec_cases : forallb (fun b => forallb (fun g => forallb (fun s => forallb (fun d =>
  let p := props b g s 1 d in
  forallb (fun sp => (spec_set sp p =? props (Z.land p 255) (p_group p) (p_maint p) sp (p_dir p))%Z)
    (small 4)
  && (spec_set 0 (maint_set 0 p) =? props (Z.land p 255) (p_group p) 0 0 (p_dir p))%Z)
  (small 8)) (small 4)) (small 2)) (small 8) = true.
Proof. vm_compute. reflexivity. Qed.
Lemma good_spec : forall p, good_props p ->
  (forall sp, (0 <= sp < 4)%Z ->
     spec_set sp p = props (Z.land p 255) (p_group p) (p_maint p) sp (p_dir p)) /\
  spec_set 0 (maint_set 0 p) = props (Z.land p 255) (p_group p) 0 0 (p_dir p).
Proof.
  intros p (b & g & s & d & (Hb & Hg & Hs & Hd) & ->).
  pose proof spec_cases as P.
  rewrite forallb_forall in P. specialize (P b (@in_small 8 b ltac:(lia))).
  rewrite forallb_forall in P. specialize (P g (@in_small 2 g ltac:(lia))).
  rewrite forallb_forall in P. specialize (P s (@in_small 4 s ltac:(lia))).
  rewrite forallb_forall in P. specialize (P d (@in_small 8 d ltac:(lia))).
  cbv zeta in P. set (p := props b g s 1 d) in *. clearbody p.
  apply andb_true_iff in P. destruct P as [P Q]. apply Z.eqb_eq in Q. split; auto.
  intros sp Hsp. rewrite forallb_forall in P. specialize (P sp (@in_small 4 sp Hsp)).
  now apply Z.eqb_eq in P.
Qed.

Definition good_item (i : ditem) : Prop :=
  (0 <= d_usi i <= 32771)%Z /\
  ((32768 <= d_usi i)%Z -> good_props (ch_props (d_std i)) /\ (0 <= qualifier (d_std i))%Z /\
     key_of (content i) <> KStandard 32768 0 0 0 0).

(** ** Cells *)
Lemma set_cell_length : forall c x l, length (set_cell c x l) = length l.
Proof. induction c; intros x [|y l]; cbn; auto. Qed.
Lemma nth_set_same : forall c x l d, c < length l -> nth c (set_cell c x l) d = x.
Proof. induction c; intros x [|y l] d H; cbn in *; try lia; auto. apply IHc. lia. Qed.
Lemma nth_set_other : forall c j x l d, j <> c -> nth j (set_cell c x l) d = nth j l d.
Proof.
  induction c; intros [|j] x [|y l] d H; cbn in *; auto; try lia; try congruence.
Qed.
Lemma set_cell_out : forall c x l, length l <= c -> set_cell c x l = l.
Proof. induction c; intros x [|y l] H; cbn in *; auto; try lia. f_equal. apply IHc. lia. Qed.

Definition dcell := mkCell false (0, 0, 0)%Z None None sum0.

Lemma key_eqb_eq : forall a b, key_eqb a b = true <-> a = b.
Proof.
  intros [[a1 a2] a3] [[b1 b2] b3]. unfold key_eqb.
  rewrite !andb_true_iff, !Z.eqb_eq. split; [intros [[? ?] ?]; congruence|].
  intros H; injection H; auto.
Qed.

Lemma find_cell_some : forall k l c, find_cell k l = Some c ->
  c < length l /\ c_use (nth c l dcell) = true /\ c_key (nth c l dcell) = k /\
  forall j, j < c -> c_use (nth j l dcell) = true -> c_key (nth j l dcell) <> k.
Proof.
  induction l as [|x l IH]; cbn; intros c H; [discriminate|].
  destruct (c_use x && key_eqb (c_key x) k) eqn:E.
  - injection H as <-. apply andb_true_iff in E. rewrite key_eqb_eq in E.
    repeat split; try tauto; lia.
  - destruct (find_cell k l) as [j|]; [|discriminate]. injection H as <-.
    destruct (IH j eq_refl) as (A & B & C & D). repeat split; auto; try lia.
    intros [|z] Hz U; [|apply D; auto; lia].
    intros K. rewrite U, K in E. cbn in E.
    assert (key_eqb k k = true) by now apply key_eqb_eq. congruence.
Qed.
Lemma find_cell_none : forall k l, find_cell k l = None ->
  forall j, c_use (nth j l dcell) = true -> c_key (nth j l dcell) <> k.
Proof.
  induction l as [|x l IH]; cbn; intros H j U.
  - destruct j; discriminate.
  - destruct (c_use x && key_eqb (c_key x) k) eqn:E; [discriminate|].
    destruct (find_cell k l); [discriminate|]. destruct j as [|j]; [|apply IH; auto].
    intros K. rewrite U, K in E. cbn in E.
    assert (key_eqb k k = true) by now apply key_eqb_eq. congruence.
Qed.

(** ** The invariant.  Ls: the lists of the cells, F: the free list. *)
Section Inv.
Variable max : nat.

Record lists (its : nat -> ditem) (fr : option nat) (cs : list cell)
    (Ls : nat -> list nat) (F : list nat) : Prop := mkLists {
  l_chain : forall j, j < length cs -> chain its (c_list (nth j cs dcell)) (Ls j);
  l_free : chain its fr F;
  l_nodup : forall j, j < length cs -> NoDup (Ls j);
  l_fnodup : NoDup F;
  l_disj : forall j k i, j < length cs -> k < length cs -> j <> k -> In i (Ls j) -> ~ In i (Ls k);
  l_fdisj : forall j i, j < length cs -> In i (Ls j) -> ~ In i F;
  l_bound : forall j i, j < length cs -> In i (Ls j) -> i < max;
  l_fbound : forall i, In i F -> i < max;
  l_use : forall j i, j < length cs -> In i (Ls j) -> d_use (its i) = true;
  l_fuse : forall i, i < max -> d_use (its i) = false <-> In i F
}.

Record dinv (s : dstate) (Ls : nat -> list nat) (F : list nat) : Prop := mkDinv {
  i_lists : lists (items s) (freel s) (cells s) Ls F;
  i_good : forall j i, j < length (cells s) -> In i (Ls j) -> good_item (items s i);
  i_keys : forall j k, c_use (nth j (cells s) dcell) = true -> c_use (nth k (cells s) dcell) = true ->
    c_key (nth j (cells s) dcell) = c_key (nth k (cells s) dcell) -> j = k;
  i_uniq : forall j, j < length (cells s) ->
    NoDup (map key_of (map content (map (items s) (Ls j))));
  i_sum : forall j, c_use (nth j (cells s) dcell) = true ->
    c_sum (nth j (cells s) dcell) = summarize (map (items s) (Ls j))
}.

Lemma len_bound : forall its fr cs Ls F j, lists its fr cs Ls F -> j < length cs ->
  length (Ls j) <= max.
Proof.
  intros its fr cs Ls F j I H.
  assert (L : incl (Ls j) (seq 0 max)).
  { intros i Hi. apply in_seq. pose proof (@l_bound _ _ _ _ _ I j i H Hi). lia. }
  rewrite <- (seq_length max 0). apply NoDup_incl_length; auto. eapply l_nodup; eauto.
Qed.
Lemma flen_bound : forall its fr cs Ls F, lists its fr cs Ls F -> length F <= max.
Proof.
  intros its fr cs Ls F I.
  assert (L : incl F (seq 0 max)).
  { intros i Hi. apply in_seq. pose proof (@l_fbound _ _ _ _ _ I i Hi). lia. }
  rewrite <- (seq_length max 0). apply NoDup_incl_length; auto. eapply l_fnodup; eauto.
Qed.

Lemma stored_inv : forall s Ls F k c, dinv s Ls F -> find_cell k (cells s) = Some c ->
  stored max s k = Some (map content (map (items s) (Ls c))).
Proof.
  intros s Ls F k c I H. unfold stored. rewrite H.
  destruct (find_cell_some _ _ H) as (L & _).
  rewrite (@walk_items_chain max (items s) _ (Ls c)); auto.
  - apply (l_chain (i_lists I)); auto.
  - pose proof (len_bound (i_lists I) L). lia.
Qed.


(** Number of items in use. *)
Lemma used_inv : forall s Ls F, lists (items s) (freel s) (cells s) Ls F ->
  used max s + length F = max.
Proof.
  intros s Ls F I. unfold used.
  assert (P : length (filter (fun i => d_use (items s i)) (seq 0 max)) +
              length (filter (fun i => negb (d_use (items s i))) (seq 0 max)) = max).
  { rewrite <- (seq_length max 0) at 3. generalize (seq 0 max) as l.
    induction l as [|a l IH]; cbn; auto. destruct (d_use (items s a)); cbn; lia. }
  assert (Q : length F = length (filter (fun i => negb (d_use (items s i))) (seq 0 max))).
  { apply Nat.le_antisymm; apply NoDup_incl_length.
    - exact (l_fnodup I).
    - intros i Hi. apply filter_In. pose proof (@l_fbound _ _ _ _ _ I i Hi).
      split; [apply in_seq; lia|]. apply negb_true_iff. apply (l_fuse I); auto.
    - apply NoDup_filter, seq_NoDup.
    - intros i Hi. apply filter_In in Hi. destruct Hi as [Hi U]. apply in_seq in Hi.
      apply negb_true_iff in U. apply (l_fuse I); auto. lia. }
  lia.
Qed.

(** ** Operations on the lists *)
Definition outside (i : nat) (cs : list cell) (Ls : nat -> list nat) (F : list nat) : Prop :=
  ~ In i F /\ forall j, j < length cs -> ~ In i (Ls j).

Lemma lists_cells : forall its fr cs cs' Ls F, lists its fr cs Ls F ->
  length cs' = length cs ->
  (forall j, j < length cs -> c_list (nth j cs' dcell) = c_list (nth j cs dcell)) ->
  lists its fr cs' Ls F.
Proof.
  intros its fr cs cs' Ls F I L H.
  constructor; rewrite ?L; intros.
  - rewrite H by assumption. eapply l_chain; eauto.
  - eapply l_free; eauto.
  - eapply l_nodup; eauto.
  - eapply l_fnodup; eauto.
  - eapply (@l_disj _ _ _ _ _ I j k); eauto.
  - eapply l_fdisj; eauto.
  - eapply l_bound; eauto.
  - eapply l_fbound; eauto.
  - eapply l_use; eauto.
  - eapply l_fuse; eauto.
Qed.

Lemma set_cell_twice : forall c a b l, set_cell c a (set_cell c b l) = set_cell c a l.
Proof. induction c; intros a b [|x l]; cbn; auto. now rewrite IHc. Qed.

(** An item is taken out of the list of cell c. *)
Lemma lists_unlink : forall its fr cs Ls F c r1 i r2 its' head',
  lists its fr cs Ls F -> c < length cs -> Ls c = r1 ++ i :: r2 ->
  chain its' head' (r1 ++ r2) ->
  (forall j, ~ In j r1 -> its' j = its j) -> (forall j, alike (its' j) (its j)) ->
  lists its' fr (set_cell c (with_list head' (nth c cs dcell)) cs) (upd Ls c (r1 ++ r2)) F /\
  i < max /\ d_use (its' i) = true /\
  outside i (set_cell c (with_list head' (nth c cs dcell)) cs) (upd Ls c (r1 ++ r2)) F.
Proof.
  intros its fr cs Ls F c r1 i r2 its' head' I Hc E C S A.
  assert (N : NoDup (r1 ++ i :: r2)) by (rewrite <- E; eapply l_nodup; eauto).
  assert (Sub : forall j, In j (r1 ++ r2) -> In j (Ls c)).
  { intros j Hj. rewrite E. rewrite in_app_iff in *. cbn. tauto. }
  assert (Hi : In i (Ls c)) by (rewrite E, in_app_iff; cbn; auto).
  assert (NotR : forall j k, k < length cs -> k <> c -> In j (Ls k) -> ~ In j r1).
  { intros j k Hk D Hj R. apply (@l_disj _ _ _ _ _ I k c j); auto. rewrite E, in_app_iff. auto. }
  assert (Use : forall j, d_use (its' j) = d_use (its j)) by (intros j; apply alike_fields, A).
  assert (Upd : forall k j, In j (upd Ls c (r1 ++ r2) k) -> In j (Ls k)).
  { intros k j. unfold upd. destruct (Nat.eqb_spec k c); [subst; auto|auto]. }
  split; [|split; [|split]].
  - constructor; rewrite ?set_cell_length.
    + intros j Hj. destruct (Nat.eq_dec j c) as [->|D].
      * rewrite nth_set_same, upd_same by auto. exact C.
      * rewrite nth_set_other, upd_other by auto. eapply chain_frame; [eapply l_chain; eauto|].
        intros z Hz. rewrite S; auto. eapply NotR; eauto.
    + eapply chain_frame; [eapply l_free; eauto|]. intros z Hz. rewrite S; auto.
      intros R. eapply (@l_fdisj _ _ _ _ _ I c z); auto. rewrite E, in_app_iff. auto.
    + intros j Hj. destruct (Nat.eq_dec j c) as [->|D].
      * rewrite upd_same. eapply NoDup_remove_1; eauto.
      * rewrite upd_other by auto. eapply l_nodup; eauto.
    + eapply l_fnodup; eauto.
    + intros j k z Hj Hk D H1 H2. apply Upd in H1. apply Upd in H2.
      exact (@l_disj _ _ _ _ _ I j k z Hj Hk D H1 H2).
    + intros j z Hj H1. apply Upd in H1. eapply l_fdisj; eauto.
    + intros j z Hj H1. apply Upd in H1. eapply l_bound; eauto.
    + intros z. eapply l_fbound; eauto.
    + intros j z Hj H1. apply Upd in H1. rewrite Use. eapply l_use; eauto.
    + intros z Hz. rewrite Use. eapply l_fuse; eauto.
  - eapply l_bound; eauto.
  - rewrite Use. eapply l_use; eauto.
  - split; [eapply l_fdisj; eauto|]. rewrite set_cell_length. intros j Hj.
    destruct (Nat.eq_dec j c) as [->|D].
    + rewrite upd_same. eapply NoDup_remove_2; eauto.
    + rewrite upd_other by auto. intros H. eapply (@l_disj _ _ _ _ _ I j c i); auto.
Qed.

(** An item that is in no list is changed. *)
Lemma lists_change : forall its fr cs Ls F i x, lists its fr cs Ls F ->
  outside i cs Ls F -> d_use x = true -> lists (upd its i x) fr cs Ls F.
Proof.
  intros its fr cs Ls F i x I [O1 O2] U.
  constructor; intros.
  - apply chain_upd; auto. eapply l_chain; eauto.
  - apply chain_upd; auto. eapply l_free; eauto.
  - eapply l_nodup; eauto.
  - eapply l_fnodup; eauto.
  - eapply (@l_disj _ _ _ _ _ I j k); eauto.
  - eapply l_fdisj; eauto.
  - eapply l_bound; eauto.
  - eapply l_fbound; eauto.
  - rewrite upd_other; [eapply l_use; eauto|]. intros ->. eapply O2; eauto.
  - destruct (Nat.eq_dec i0 i) as [->|D].
    + rewrite upd_same, U. split; [discriminate|]. intros Q. destruct (O1 Q).
    + rewrite upd_other by auto. eapply l_fuse; eauto.
Qed.

(** It is put at the head of the list of cell c. *)
Lemma lists_put : forall its fr cs Ls F i c x, lists its fr cs Ls F ->
  outside i cs Ls F -> i < max -> c < length cs -> d_use x = true ->
  d_next x = c_list (nth c cs dcell) ->
  lists (upd its i x) fr (set_cell c (with_list (Some i) (nth c cs dcell)) cs)
    (upd Ls c (i :: Ls c)) F.
Proof.
  intros its fr cs Ls F i c x I O Hi Hc U Nx.
  pose proof (@lists_change _ _ _ _ _ i x I O U) as J. destruct O as [O1 O2].
  constructor; rewrite ?set_cell_length; intros.
  - destruct (Nat.eq_dec j c) as [->|D].
    + rewrite nth_set_same, upd_same by auto. cbn [with_list c_list]. constructor.
      rewrite upd_same, Nx. eapply l_chain; eauto.
    + rewrite nth_set_other, upd_other by auto. eapply l_chain; eauto.
  - eapply l_free; eauto.
  - destruct (Nat.eq_dec j c) as [->|D].
    + rewrite upd_same. constructor; auto. eapply l_nodup; eauto.
    + rewrite upd_other by auto. eapply l_nodup; eauto.
  - eapply l_fnodup; eauto.
  - destruct (Nat.eq_dec j c) as [->|D]; [rewrite upd_same in *|rewrite upd_other in H2 by auto];
    (destruct (Nat.eq_dec k c) as [->|D']; [rewrite upd_same|rewrite upd_other by auto]); try congruence.
    + destruct H2 as [<-|H2]; auto. eapply (@l_disj _ _ _ _ _ I c k); eauto.
    + intros [<-|Q]; [exact (O2 j H H2)|]. exact (@l_disj _ _ _ _ _ I j c i0 H H0 H1 H2 Q).
    + exact (@l_disj _ _ _ _ _ I j k i0 H H0 H1 H2).
  - destruct (Nat.eq_dec j c) as [->|D]; [rewrite upd_same in H0|rewrite upd_other in H0 by auto].
    + destruct H0 as [<-|H0]; auto. eapply l_fdisj; eauto.
    + eapply l_fdisj; eauto.
  - destruct (Nat.eq_dec j c) as [->|D]; [rewrite upd_same in H0|rewrite upd_other in H0 by auto].
    + destruct H0 as [<-|H0]; auto. eapply l_bound; eauto.
    + eapply l_bound; eauto.
  - eapply l_fbound; eauto.
  - destruct (Nat.eq_dec j c) as [->|D]; [rewrite upd_same in H0|rewrite upd_other in H0 by auto].
    + destruct H0 as [<-|H0]; [now rewrite upd_same|]. eapply l_use; eauto.
    + eapply l_use; eauto.
  - eapply l_fuse; eauto.
Qed.

(** The first free item is taken. *)
Lemma lists_alloc : forall its fr cs Ls i F x, lists its fr cs Ls (i :: F) ->
  d_use x = true ->
  fr = Some i /\ i < max /\
  lists (upd its i x) (d_next (its i)) cs Ls F /\ outside i cs Ls F.
Proof.
  intros its fr cs Ls i F x I U.
  pose proof (l_free I) as C. apply chain_head in C. destruct C as [-> C].
  pose proof (l_fnodup I) as N. apply NoDup_cons_iff in N. destruct N as [N1 N2].
  assert (O : outside i cs Ls F).
  { split; auto. intros j Hj H. apply (@l_fdisj _ _ _ _ _ I j i Hj H). cbn; auto. }
  split; auto. split; [apply (@l_fbound _ _ _ _ _ I); cbn; auto|]. split; auto.
  destruct O as [O1 O2].
  constructor; intros.
  - apply chain_upd; auto. eapply l_chain; eauto.
  - apply chain_upd; auto.
  - eapply l_nodup; eauto.
  - auto.
  - eapply (@l_disj _ _ _ _ _ I j k); eauto.
  - intros Q. eapply (@l_fdisj _ _ _ _ _ I j); eauto. cbn; auto.
  - eapply l_bound; eauto.
  - eapply l_fbound; eauto. cbn; auto.
  - rewrite upd_other; [eapply l_use; eauto|]. intros ->. eapply O2; eauto.
  - destruct (Nat.eq_dec i0 i) as [->|D].
    + rewrite upd_same, U. split; [discriminate|]. intros Q. destruct (N1 Q).
    + rewrite upd_other by auto. rewrite (@l_fuse _ _ _ _ _ I i0 H). cbn. intuition congruence.
Qed.

(** An item that is in no list is freed. *)
Lemma lists_free : forall its fr cs Ls i F x, lists its fr cs Ls F ->
  outside i cs Ls F -> i < max -> d_use x = false -> d_next x = fr ->
  lists (upd its i x) (Some i) cs Ls (i :: F).
Proof.
  intros its fr cs Ls i F x I [O1 O2] Hi U Nx.
  constructor; intros.
  - apply chain_upd; auto. eapply l_chain; eauto.
  - constructor. rewrite upd_same, Nx. apply chain_upd; auto. eapply l_free; eauto.
  - eapply l_nodup; eauto.
  - constructor; auto. eapply l_fnodup; eauto.
  - eapply (@l_disj _ _ _ _ _ I j k); eauto.
  - intros [<-|Q]; [eapply O2; eauto|]. eapply (@l_fdisj _ _ _ _ _ I j); eauto.
  - eapply l_bound; eauto.
  - destruct H as [<-|H]; auto. eapply l_fbound; eauto.
  - rewrite upd_other; [eapply l_use; eauto|]. intros ->. eapply O2; eauto.
  - destruct (Nat.eq_dec i0 i) as [->|D].
    + rewrite upd_same, U. cbn. tauto.
    + rewrite upd_other by auto. rewrite (@l_fuse _ _ _ _ _ I i0 H). cbn. intuition congruence.
Qed.

(** ** Contents *)
Lemma content_alike : forall a b, alike a b -> content a = content b.
Proof. intros a b H. apply alike_fields in H. unfold content. destruct H as (_ & -> & -> & ->). auto. Qed.
Lemma good_alike : forall a b, alike a b -> good_item b -> good_item a.
Proof.
  intros a b H. pose proof (content_alike H) as C. apply alike_fields in H. unfold good_item.
  destruct H as (_ & E1 & E2 & _). rewrite E1, E2, C. auto.
Qed.
Lemma map_content_alike : forall (its its' : nat -> ditem) l, (forall j, In j l -> alike (its' j) (its j)) ->
  map content (map its' l) = map content (map its l).
Proof.
  intros its its' l H. rewrite !map_map. apply map_ext_in. intros j Hj.
  apply content_alike; auto.
Qed.
Lemma summarize_from_alike : forall (its its' : nat -> ditem) l s, (forall j, In j l -> alike (its' j) (its j)) ->
  fold_left (fun s i => if d_use i then add_summary i s else s) (map its' l) s =
  fold_left (fun s i => if d_use i then add_summary i s else s) (map its l) s.
Proof.
  induction l as [|a l IH]; cbn; intros s H; auto.
  destruct (alike_fields (H a (or_introl eq_refl))) as (E1 & E2 & E3 & _).
  unfold add_summary. rewrite E1, E2, E3. apply IH. auto.
Qed.
Lemma summarize_alike : forall (its its' : nat -> ditem) l, (forall j, In j l -> alike (its' j) (its j)) ->
  summarize (map its' l) = summarize (map its l).
Proof. intros. now apply summarize_from_alike. Qed.
Lemma problem_alike : forall (its its' : nat -> ditem) l, (forall j, In j l -> alike (its' j) (its j)) ->
  is_problem (map its' l) = is_problem (map its l).
Proof.
  induction l as [|a l IH]; cbn; intros H; auto.
  destruct (alike_fields (H a (or_introl eq_refl))) as (E1 & E2 & E3 & _).
  rewrite E1, E2, E3. f_equal. apply IH. auto.
Qed.

(** For stored items the comparison is equality of keys. *)
Lemma matches_key : forall src err ext usi i, good_item i -> src_ok src usi ->
  acceptable_key src err ext usi ->
  matches src err ext usi i = has_key (named src err ext usi) (content i).
Proof.
  intros src err ext usi i G (R1 & R2 & R3 & R4) (K1 & K2 & K3 & K4).
  unfold matches, has_key, named. change usi_channel with 32768%Z. unfold good_item, content in *.
  destruct (Z.leb_spec 32768 (d_usi i)) as [L|L].
  - destruct (Z.ltb_spec (d_usi i) 32768) as [L'|_]; [lia|].
    destruct G as [_ G]. destruct (G L) as (P & _ & B). destruct (good_fields P) as (F1 & F2 & _).
    rewrite F1, F2. cbn [key_of] in *.
    destruct (Z.ltb_spec usi 32768) as [U|U].
    + destruct (K3 U) as [-> ->]. destruct (R4 U) as (U1 & U2 & U3). rewrite U1, U2, U3.
      destruct (dkey_eq_dec _ _) as [E|_]; [discriminate|].
      destruct ((ch_nbr (d_std i) =? 32768)%Z && (ch_err (d_std i) =? 0)%Z &&
                (ext_err (d_std i) =? 0)%Z && (p_group (ch_props (d_std i)) =? 0)%Z &&
                (p_dir (ch_props (d_std i)) =? 0)%Z) eqn:Q; auto.
      exfalso. apply B. rewrite !andb_true_iff, !Z.eqb_eq in Q. destruct Q as [[[[-> ->] ->] ->] ->].
      reflexivity.
    + destruct (dkey_eq_dec _ _) as [E|E].
      * injection E as -> -> -> -> ->. now rewrite !Z.eqb_refl.
      * destruct (_ && _) eqn:Q; auto. exfalso. apply E.
        rewrite !andb_true_iff, !Z.eqb_eq in Q. destruct Q as [[[[-> ->] ->] ->] ->]. reflexivity.
  - destruct (Z.ltb_spec (d_usi i) 32768) as [_|L']; [|lia]. cbn [key_of].
    destruct (dkey_eq_dec _ _) as [E|E]; destruct (Z.ltb_spec usi 32768) as [U|U]; try discriminate.
    + injection E as ->. apply Z.eqb_refl.
    + apply Z.eqb_neq. congruence.
    + apply Z.eqb_neq. lia.
Qed.
End Inv.
