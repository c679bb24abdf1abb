(** Connections are only accepted over a port that is fast enough. *)
From Coq Require Import List ZArith Bool Lia.
From Verif Require Import Base PortModel FastModel.
Import ListNotations.
Local Open Scope Z_scope.

(** * Specification *)

(** The types of links of pnal.h with their speed in MBit/s and whether they are full duplex. *)
Definition link_types : list (Z * (Z * bool)) :=
  [(0, (0, false)); (5, (10, false)); (15, (100, false)); (16, (100, true)); (17, (100, false)); (18, (100, true));
   (21, (1000, false)); (22, (1000, true)); (29, (1000, false)); (30, (1000, true))].

(** A port that is up, with at least 100 MBit/s, full duplex. *)
Definition good (l : link) : Prop := l_running l = true /\ exists speed, In (l_mau l, (speed, true)) link_types /\ 100 <= speed.

(** The type is one of pnal.h. *)
Definition known (l : link) : Prop := exists s d, In (l_mau l, (s, d)) link_types.

(** A link with 100 MBit/s over fibre or 1000 MBit/s that is half duplex. *)
Definition fast_half (l : link) : Prop := l_mau l = mau_100_fx_half \/ l_mau l = mau_1000_x_half \/ l_mau l = mau_1000_t_half.

(** * Proof *)

Lemma fast_loop_spec : forall d k status p n it found, it = snd (get_next (mkIter p n)) -> 0 < p -> n - p = Z.of_nat d -> (S d <= k)%nat ->
  exists r, fast_loop k status p it found = Some r /\
    (r = true <-> found = true \/ exists q, p <= q <= n /\ l_running (status q) = true /\ 16 <= l_mau (status q)).
Proof.
  induction d as [|d IH]; intros k status p n it found E P D K; (destruct k as [|k]; [lia|]); cbn [fast_loop]; destruct (Z.eqb_spec p 0); try lia.
  - assert (p = n) by lia. subst p. unfold get_next in E. cbn [it_next it_n] in E. rewrite Z.eqb_refl in E. cbn [orb snd] in E. subst it.
    replace (get_next (mkIter 0 n)) with (0, mkIter 0 n). 2:{ unfold get_next. cbn [it_next it_n]. rewrite orb_true_r. reflexivity. }
    destruct k; cbn [fast_loop Z.eqb]; eexists; (split; [reflexivity|]); unfold mau_100_tx_full; destruct (Z.leb_spec 16 (l_mau (status n))), (l_running (status n)) eqn:R; cbn [andb];
    (split; [intro T; try (right; exists n; repeat split; try lia; assumption); left; exact T|intros [T|(q & Q1 & Q2 & Q3)]; [try exact T; reflexivity|]; assert (q = n) by lia; subst q; try reflexivity; try congruence; lia]).
  - unfold get_next in E. cbn [it_next it_n] in E. destruct (Z.eqb_spec p n); [lia|]. cbn [orb] in E. destruct (Z.eqb_spec p 0); [lia|]. destruct (Z.ltb_spec n p); [lia|]. cbn [snd] in E. subst it.
    destruct (get_next (mkIter (p + 1) n)) as (p', it') eqn:G.
    assert (p' = p + 1). { unfold get_next in G. cbn [it_next it_n] in G. destruct (Z.eqb_spec (p + 1) n), (Z.eqb_spec (p + 1) 0), (Z.ltb_spec n (p + 1)); cbn [orb] in G; try lia; injection G as <- _; reflexivity. }
    subst p'. edestruct (IH k status (p + 1) n it') as (r & F & S); [rewrite G; reflexivity|lia|lia|lia|]. exists r. split; [exact F|]. rewrite S. unfold mau_100_tx_full.
    destruct (Z.leb_spec 16 (l_mau (status p))), (l_running (status p)) eqn:R; cbn [andb]; split.
    + intros _. right. exists p. repeat split; try lia; assumption.
    + intros _. left. reflexivity.
    + intros [T|(q & Q)]; [left; exact T|right; exists q; repeat split; try tauto; lia].
    + intros [T|(q & Q1 & Q2 & Q3)]; [left; exact T|right]. exists q. destruct (Z.eq_dec q p); [subst; congruence|]. repeat split; try tauto; lia.
    + intros [T|(q & Q)]; [left; exact T|right; exists q; repeat split; try tauto; lia].
    + intros [T|(q & Q1 & Q2 & Q3)]; [left; exact T|right]. exists q. destruct (Z.eq_dec q p); [subst; lia|]. repeat split; try tauto; lia.
    + intros [T|(q & Q)]; [left; exact T|right; exists q; repeat split; try tauto; lia].
    + intros [T|(q & Q1 & Q2 & Q3)]; [left; exact T|right]. exists q. destruct (Z.eq_dec q p); [subst; congruence|]. repeat split; try tauto; lia.
Qed.

Lemma check_spec : forall n status k, 1 <= n -> (Z.to_nat n <= k)%nat ->
  exists r, check_pdev k n status = Some r /\ (r = true <-> exists q, 1 <= q <= n /\ l_running (status q) = true /\ 16 <= l_mau (status q)).
Proof.
  intros n status k N K. unfold check_pdev, fast_port, iter_init. destruct (get_next (mkIter 1 n)) as (p, it) eqn:G.
  assert (p = 1). { unfold get_next in G. cbn [it_next it_n] in G. destruct (Z.eqb_spec 1 n), (Z.ltb_spec n 1); cbn [orb Z.eqb] in G; try lia; injection G as <- _; reflexivity. }
  subst p. destruct (fast_loop_spec (Z.to_nat (n - 1)) k status 1 n it false) as (r & F & S); [rewrite G; reflexivity|lia|lia|lia|]. exists r. split; [exact F|]. rewrite S. split; [intros [T|T]; [discriminate T|exact T]|tauto].
Qed.

Ltac types H := cbn [In link_types] in H; repeat (destruct H as [H|H]); try contradiction; injection H; intros; subst.

(** * Theorems *)

(** The check ends after all ports of the device. *)
Theorem C134_ends : forall n status, 1 <= n -> exists r, check_pdev (Z.to_nat n) n status = Some r.
Proof. intros n status N. destruct (check_spec n status (Z.to_nat n) N (le_n _)) as (r & E & _). eauto. Qed.
Print Assumptions C134_ends.

(** If a port is good, whichever it is, the check passes. *)
Theorem C134_good : forall n status q, 1 <= n -> 1 <= q <= n -> good (status q) -> check_pdev (Z.to_nat n) n status = Some true.
Proof.
  intros n status q N Q (R & s & I & S). destruct (check_spec n status (Z.to_nat n) N (le_n _)) as (r & E & X). rewrite E. f_equal. apply X. exists q. repeat split; try lia; [exact R|].
  types I; lia.
Qed.
Print Assumptions C134_good.

(** The check passes exactly if a port is good.  Missing: fast links that are half duplex, for which it
    does not hold (C134_half_refuted). *)
Theorem C134_exact_partial : forall n status, 1 <= n -> (forall q, 1 <= q <= n -> known (status q) /\ ~ fast_half (status q)) ->
  exists r, check_pdev (Z.to_nat n) n status = Some r /\ (r = true <-> exists q, 1 <= q <= n /\ good (status q)).
Proof.
  intros n status N K. destruct (check_spec n status (Z.to_nat n) N (le_n _)) as (r & E & X). exists r. split; [exact E|]. rewrite X. split.
  - intros (q & Q & R & S). exists q. split; [exact Q|]. split; [exact R|]. destruct (K q Q) as ((s & d & I) & NH). unfold fast_half, mau_100_fx_half, mau_1000_x_half, mau_1000_t_half in NH.
    types I; try (exfalso; lia); eexists; (split; [match goal with A : _ = l_mau _ |- _ => rewrite <- A end; cbn [In link_types]; tauto|lia]).
  - intros (q & Q & R & s & I & S). exists q. split; [exact Q|]. split; [exact R|]. types I; lia.
Qed.
Print Assumptions C134_exact_partial.

(** Two ports: the first is down, the second is up with 100 MBit/s full duplex; then with 10 MBit/s. *)
Example C134_example : check_pdev 2 2 (fun q => if q =? 2 then mkLink true 16 else mkLink false 16) = Some true /\
  check_pdev 2 2 (fun q => if q =? 2 then mkLink true 5 else mkLink false 16) = Some false /\ good (mkLink true 16) /\ known (mkLink true 5) /\ ~ fast_half (mkLink true 5).
Proof.
  split; [reflexivity|]. split; [reflexivity|]. split; [split; [reflexivity|]; exists 100; split; [cbn; tauto|lia]|]. split; [exists 10, false; cbn; tauto|]. unfold fast_half, mau_100_fx_half, mau_1000_x_half, mau_1000_t_half. cbn. lia.
Qed.
Print Assumptions C134_example.

(** A device whose only port is half duplex (100BaseFX, 1000BaseX or 1000BaseT) passes the check. *)
Theorem C134_half_refuted : ~ (forall n status, 1 <= n -> (forall q, known (status q)) -> check_pdev (Z.to_nat n) n status = Some true -> exists q, 1 <= q <= n /\ good (status q)).
Proof.
  intro H. specialize (H 1 (fun _ => mkLink true mau_100_fx_half) ltac:(lia)). destruct H as (q & _ & _ & s & I & _); [intros _; exists 100, false; cbn; tauto|reflexivity|].
  cbn in I. repeat (destruct I as [I|I]); try contradiction; inversion I.
Qed.
Print Assumptions C134_half_refuted.
