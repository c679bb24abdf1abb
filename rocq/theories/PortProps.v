(** Properties C22 and C23 of the port helpers. *)
From Coq Require Import List ZArith Arith Bool Lia.
From Verif Require Import Base PortModel.
Import ListNotations.
Local Open Scope Z_scope.

(** * Specification *)

(** The ports 1, 2, ..., n. *)
Definition ports (n : nat) : list Z := map (fun k => Z.of_nat k + 1) (seq 0 n).

(** Port [p] is in a port list: pf_lldp.h:66-87, most significant bit of the first
    byte is port 1. *)
Definition in_port_list (l : nat -> Z) (p : Z) : bool :=
  Z.testbit (l (Z.to_nat ((p - 1) / 8))) (7 - (p - 1) mod 8).

(** * Lemmas *)

Fixpoint after (f : iter -> Z * iter) (k : nat) (i : iter) : iter :=
  match k with O => i | Datatypes.S k' => after f k' (snd (f i)) end.

Lemma calls_app : forall f a b i, calls f (a + b) i = calls f a i ++ calls f b (after f a i).
Proof.
  intros f. induction a as [|a IH]; intros b i; [reflexivity|].
  cbn [calls plus after]. destruct (f i) as [r i1] eqn:E. cbn [snd app]. rewrite IH. reflexivity.
Qed.

Lemma zeros : forall k n, calls get_next k (mkIter 0 n) = repeat 0 k.
Proof.
  induction k as [|k IH]; intros n; [reflexivity|]. cbn [calls repeat]. unfold get_next. cbn [it_next it_n].
  rewrite orb_true_r. rewrite IH. reflexivity.
Qed.

Lemma run_from : forall k n m p, 0 < p -> n = p + Z.of_nat k - 1 ->
  calls get_next (k + m) (mkIter p n) = map (fun j => Z.of_nat j + p) (seq 0 k) ++ repeat 0 m.
Proof.
  induction k as [|k IH]; intros n m p P N.
  - cbn [plus seq map app]. destruct m as [|m]; [reflexivity|]. cbn [calls]. unfold get_next. cbn [it_next it_n].
    destruct (Z.eqb_spec p n); [lia|]. destruct (Z.eqb_spec p 0); [lia|]. cbn [orb].
    destruct (Z.ltb_spec n p); [|lia]. rewrite zeros. reflexivity.
  - cbn [plus calls seq map]. unfold get_next. cbn [it_next it_n].
    destruct (Z.eqb_spec p 0); [lia|]. rewrite orb_false_r.
    assert (S : forall l, map (fun j => Z.of_nat j + p) (seq 1 k) ++ l = map (fun j => Z.of_nat j + (p + 1)) (seq 0 k) ++ l).
    { intros l. f_equal. rewrite <- seq_shift, map_map. apply map_ext. intros; lia. }
    destruct (Z.eqb_spec p n) as [E|E].
    + assert (k = O) by lia. subst k. cbn [plus seq map app]. rewrite zeros. reflexivity.
    + destruct (Z.ltb_spec n p); [lia|]. rewrite IH by lia. cbn [app]. rewrite S. reflexivity.
Qed.

(** ** C22 *)

(** Any number of calls yields the ports in order, each once, and then zeros. *)
Theorem C22_iterator : forall n m, 
  calls get_next (n + m) (iter_init (Z.of_nat n)) = ports n ++ repeat 0 m.
Proof. intros n m. unfold iter_init, ports. rewrite run_from by lia. reflexivity. Qed.
Print Assumptions C22_iterator.

Lemma cyc_run : forall k n p, 0 < p -> p + Z.of_nat k = n ->
  calls get_next_cyclic (Datatypes.S k) (mkIter p n) = map (fun j => Z.of_nat j + p) (seq 0 (Datatypes.S k)) /\
  after get_next_cyclic (Datatypes.S k) (mkIter p n) = mkIter 1 n.
Proof.
  induction k as [|k IH]; intros n p P N.
  - cbn [calls after seq map]. unfold get_next_cyclic. cbn [it_next it_n snd].
    destruct (Z.ltb_spec n p); [lia|]. destruct (Z.eqb_spec p n); [|lia]. split; reflexivity.
  - destruct (IH n (p + 1) ltac:(lia) ltac:(lia)) as (A & B).
    assert (E : get_next_cyclic (mkIter p n) = (p, mkIter (p + 1) n)).
    { unfold get_next_cyclic. cbn [it_next it_n]. destruct (Z.ltb_spec n p); [lia|].
      destruct (Z.eqb_spec p n); [lia|]. reflexivity. }
    change (calls get_next_cyclic (Datatypes.S (Datatypes.S k)) (mkIter p n)) with
      (let '(r, i') := get_next_cyclic (mkIter p n) in r :: calls get_next_cyclic (Datatypes.S k) i').
    change (after get_next_cyclic (Datatypes.S (Datatypes.S k)) (mkIter p n)) with
      (after get_next_cyclic (Datatypes.S k) (snd (get_next_cyclic (mkIter p n)))).
    rewrite E. cbn [snd]. rewrite A, B. split; [|reflexivity].
    change (seq 0 (Datatypes.S (Datatypes.S k))) with (O :: seq 1 (Datatypes.S k)). rewrite <- seq_shift.
    cbn [map]. rewrite map_map. f_equal. cbn [seq map]. f_equal; [lia|].
    apply map_ext. intros; lia.
Qed.

(** The cyclic iterator yields the ports in order, round after round. *)
Theorem C22_cyclic : forall n rounds, (0 < n)%nat ->
  calls get_next_cyclic (rounds * n) (iter_init (Z.of_nat n)) = concat (repeat (ports n) rounds).
Proof.
  intros n rounds N. unfold iter_init. induction rounds as [|r IH]; [reflexivity|].
  cbn [Nat.mul repeat concat]. rewrite calls_app.
  destruct n as [|n]; [lia|].
  destruct (cyc_run n (Z.of_nat (Datatypes.S n)) 1 ltac:(lia) ltac:(lia)) as (C & D). rewrite C, D.
  rewrite IH. reflexivity.
Qed.
Print Assumptions C22_cyclic.

(** Within the first calls of a round no port is repeated: the call number [k]
    yields port [k mod n + 1]. *)
Theorem C22_cyclic_kth : forall n k, (0 < n)%nat ->
  nth k (calls get_next_cyclic (S k) (iter_init (Z.of_nat n))) 0 = Z.of_nat (k mod n) + 1.
Proof.
  intros n k N.
  assert (T : forall f j m i, (j < m)%nat -> nth j (calls f m i) 0 = nth j (calls f (S j) i) 0).
  { clear. intros f. induction j as [|j IH]; intros [|m] i L; try lia; cbn [calls]; destruct (f i); [reflexivity|].
    cbn [nth]. rewrite IH by lia. reflexivity. }
  assert (L : (k < (S (k / n)) * n)%nat)
    by (pose proof (Nat.div_mod k n ltac:(lia)); pose proof (Nat.mod_upper_bound k n ltac:(lia)); nia).
  rewrite <- (T _ k _ _ L). rewrite C22_cyclic by auto.
  assert (Lp : length (ports n) = n) by (unfold ports; rewrite map_length, seq_length; reflexivity).
  assert (G : forall r j, (j < r * n)%nat -> nth j (concat (repeat (ports n) r)) 0 = nth (j mod n) (ports n) 0).
  { induction r as [|r IH]; intros j Lj; [lia|]. cbn [repeat concat].
    destruct (Nat.lt_ge_cases j n) as [Q|Q].
    - rewrite app_nth1 by lia. rewrite Nat.mod_small by auto. reflexivity.
    - rewrite app_nth2 by lia. rewrite Lp, IH by lia.
      replace (j mod n)%nat with ((j - n) mod n)%nat; [reflexivity|].
      replace j with ((j - n) + 1 * n)%nat at 2 by lia. rewrite Nat.mod_add by lia. reflexivity. }
  rewrite G by exact L. unfold ports.
  pose proof (Nat.mod_upper_bound k n ltac:(lia)) as M.
  rewrite nth_indep with (d' := (fun k => Z.of_nat k + 1) O) by (rewrite map_length, seq_length; lia).
  rewrite (map_nth (fun k => Z.of_nat k + 1)), seq_nth by lia. reflexivity.
Qed.
Print Assumptions C22_cyclic_kth.

(** ** C23 *)

Definition nports (n : Z) : Prop := 0 <= n < 256.   (* uint8_t *)

Theorem C23_round_trip : forall n p, nports n -> 1 <= p <= n ->
  exists s, port_to_subslot n p = Ok s /\ s = 32768 + p /\ 0 <= s < 65536 /\ subslot_to_port n s = p /\ subslot_is_port n s = true.
Proof.
  intros n p N P. unfold nports in N. unfold port_to_subslot, port_valid.
  replace ((0 <? p) && (p <=? n)) with true by (symmetry; apply andb_true_iff; split; [apply Z.ltb_lt|apply Z.leb_le]; lia).
  eexists. split; [reflexivity|]. rewrite u16_id by lia.
  unfold subslot_is_port, subslot_to_port, port_valid.
  replace (1 + (32769 + p - 1) - 32769) with p by lia.
  replace ((0 <? p) && (p <=? n)) with true by (symmetry; apply andb_true_iff; split; [apply Z.ltb_lt|apply Z.leb_le]; lia).
  destruct (Z.eqb_spec p 0); [lia|]. repeat split; lia.
Qed.
Print Assumptions C23_round_trip.

Lemma port_valid_spec : forall n p, port_valid n p = true <-> 1 <= p <= n.
Proof. intros n p. unfold port_valid. rewrite andb_true_iff, Z.ltb_lt, Z.leb_le. lia. Qed.

(** A sub-slot is taken for port [p] only if it is the sub-slot of a configured
    port; every other 16-bit number gives 0, and unconfigured ports are refused. *)
Theorem C23_inverse : forall n s p, nports n -> 0 <= s < 65536 -> p <> 0 ->
  (subslot_to_port n s = p <-> port_to_subslot n p = Ok s).
Proof.
  intros n s p N Hs P. unfold nports in N. unfold port_to_subslot, subslot_to_port. split.
  - destruct (port_valid n (1 + s - 32769)) eqn:V; [|congruence]. intros <-. rewrite V.
    apply port_valid_spec in V. rewrite u16_id by lia. f_equal. lia.
  - destruct (port_valid n p) eqn:V; [|discriminate]. intros H.
    assert (H' : forall a b : Z, Ok a = Ok b -> a = b) by congruence. apply H' in H.
    assert (V' := V). apply port_valid_spec in V'. rewrite u16_id in H by lia.
    replace (1 + s - 32769) with p by lia. rewrite V. reflexivity.
Qed.
Print Assumptions C23_inverse.

Theorem C23_only_ports : forall n s, nports n -> 0 <= s < 65536 ->
  (subslot_is_port n s = true <-> exists p, 1 <= p <= n /\ s = 32768 + p).
Proof.
  intros n s N Hs. unfold subslot_is_port, subslot_to_port. split.
  - destruct (port_valid n (1 + s - 32769)) eqn:V; [|discriminate].
    apply port_valid_spec in V. intros _. exists (1 + s - 32769). lia.
  - intros (p & P & ->). replace (1 + (32768 + p) - 32769) with p by lia.
    replace (port_valid n p) with true by (symmetry; apply port_valid_spec; lia).
    destruct (Z.eqb_spec p 0); [lia|reflexivity].
Qed.
Print Assumptions C23_only_ports.

Theorem C23_distinct : forall n p q s, nports n -> port_to_subslot n p = Ok s -> port_to_subslot n q = Ok s -> p = q.
Proof.
  intros n p q s N. unfold nports in N. unfold port_to_subslot.
  destruct (port_valid n p) eqn:V; [|discriminate]. destruct (port_valid n q) eqn:W; [|discriminate].
  apply port_valid_spec in V, W. rewrite !u16_id by lia.
  assert (H' : forall a b : Z, Ok a = Ok b -> a = b) by congruence.
  intros A B. apply H' in A, B. lia.
Qed.
Print Assumptions C23_distinct.

Lemma port_list_loop_spec : forall k port l, 1 <= port -> port + Z.of_nat k <= 17 ->
  (forall i, 0 <= l i < 256) ->
  exists l', port_list_loop k port l = Ok l' /\ (forall i, 0 <= l' i < 256) /\
  forall p, 1 <= p <= 16 -> in_port_list l' p = in_port_list l p || ((port <=? p) && (p <? port + Z.of_nat k)).
Proof.
  induction k as [|k IH]; intros port l P K R.
  - exists l. split; [reflexivity|]. split; [exact R|]. intros p Hp.
    destruct (Z.leb_spec port p); destruct (Z.ltb_spec p (port + Z.of_nat 0)); try lia; cbn [andb]; rewrite orb_false_r; reflexivity.
  - cbn [port_list_loop].
    assert (I0 : 0 <= (port - 1) / 8 < 2) by (split; [apply Z.div_pos|apply Z.div_lt_upper_bound]; lia).
    destruct (Z.ltb_spec ((port - 1) / 8) 2); [|lia]. cbn [negb].
    assert (M0 : 0 <= (port - 1) mod 8 < 8) by (apply Z.mod_pos_bound; lia).
    set (b := 7 - (port - 1) mod 8) in *. assert (B0 : 0 <= b < 8) by (unfold b; lia).
    assert (Sm : 0 <= Z.shiftl 1 b < 256).
    { rewrite Z.shiftl_1_l. split; [apply Z.pow_nonneg; lia|]. change 256 with (2 ^ 8). apply Z.pow_lt_mono_r; lia. }
    set (ix := Z.to_nat ((port - 1) / 8)) in *.
    rewrite (u8_id (Z.shiftl 1 b)) by exact Sm.
    assert (Lr : 0 <= Z.lor (l ix) (Z.shiftl 1 b) < 256).
    { specialize (R ix). split; [apply Z.lor_nonneg; lia|].
      destruct (Z.eq_dec (Z.lor (l ix) (Z.shiftl 1 b)) 0) as [->|NZ]; [lia|].
      assert (0 <= Z.lor (l ix) (Z.shiftl 1 b)) by (apply Z.lor_nonneg; lia).
      change 256 with (2 ^ 8). apply Z.log2_lt_pow2; [lia|].
      rewrite Z.log2_lor by lia. apply Z.max_lub_lt.
      - destruct (Z.eq_dec (l ix) 0) as [->|]; [cbn; lia|]. apply Z.log2_lt_pow2; [lia|]. change (2 ^ 8) with 256. lia.
      - rewrite Z.shiftl_1_l, Z.log2_pow2 by lia. lia. }
    rewrite u8_id by exact Lr.
    destruct (IH (port + 1) (upd l ix (Z.lor (l ix) (Z.shiftl 1 b))) ltac:(lia) ltac:(lia)) as (l' & A & R' & Q).
    { intros i. destruct (Nat.eq_dec i ix) as [->|NE]; [rewrite upd_same; exact Lr|rewrite upd_other by auto; apply R]. }
    exists l'. split; [exact A|]. split; [exact R'|]. intros p Hp. rewrite Q by exact Hp. clear Q A R' IH.
    unfold in_port_list at 1.
    assert (Mp : 0 <= (p - 1) mod 8 < 8) by (apply Z.mod_pos_bound; lia).
    assert (Dp : 0 <= (p - 1) / 8 < 2) by (split; [apply Z.div_pos|apply Z.div_lt_upper_bound]; lia).
    destruct (Z.eq_dec p port) as [->|NE].
    + fold ix. fold b. rewrite upd_same, Z.lor_spec, Z.shiftl_1_l, Z.pow2_bits_true by lia. rewrite orb_true_r.
      destruct (Z.leb_spec port port); [|lia]. destruct (Z.ltb_spec port (port + Z.of_nat (Datatypes.S k))); [|lia].
      rewrite orb_true_r. reflexivity.
    + assert (E : Z.testbit (upd l ix (Z.lor (l ix) (Z.shiftl 1 b)) (Z.to_nat ((p - 1) / 8))) (7 - (p - 1) mod 8) = in_port_list l p).
      { unfold in_port_list. destruct (Nat.eq_dec (Z.to_nat ((p - 1) / 8)) ix) as [Ei|Ni].
        - rewrite Ei, upd_same, Z.lor_spec, Z.shiftl_1_l. rewrite Z.pow2_bits_false; [rewrite orb_false_r; reflexivity|].
          unfold b. intros Q. unfold ix in Ei. apply NE.
          pose proof (Z.div_mod (p - 1) 8 ltac:(lia)). pose proof (Z.div_mod (port - 1) 8 ltac:(lia)). lia.
        - rewrite upd_other by exact Ni. reflexivity. }
      rewrite E. destruct (Z.leb_spec (port + 1) p); destruct (Z.leb_spec port p); try lia;
      destruct (Z.ltb_spec p (port + 1 + Z.of_nat k)); destruct (Z.ltb_spec p (port + Z.of_nat (Datatypes.S k))); try lia; reflexivity.
Qed.

(** With at most 16 ports the list of ports contains exactly the configured ones;
    with more, building it fails an assertion. *)
Theorem C23_port_list_exact : forall n, 0 <= n <= 16 ->
  exists l, port_list n = Ok l /\ forall p, 1 <= p <= 16 -> (in_port_list l p = true <-> p <= n).
Proof.
  intros n N. unfold port_list.
  destruct (port_list_loop_spec (Z.to_nat n) 1 (fun _ => 0) ltac:(lia) ltac:(lia)) as (l & A & _ & Q).
  { intros; lia. }
  exists l. split; [exact A|]. intros p Hp. rewrite Q by exact Hp. unfold in_port_list. rewrite Z.bits_0. cbn [orb].
  rewrite andb_true_iff, Z.leb_le, Z.ltb_lt. lia.
Qed.
Print Assumptions C23_port_list_exact.

Theorem C23_port_list_over_16 : forall n, nports n -> 16 < n -> port_list n = AssertFail.
Proof.
  intros n N L. unfold port_list.
  assert (G : forall k port l, 1 <= port <= 17 -> 17 < port + Z.of_nat k -> port_list_loop k port l = AssertFail).
  { induction k as [|k IH]; intros port l P K; [lia|]. cbn [port_list_loop].
    destruct (Z.ltb_spec ((port - 1) / 8) 2) as [Q|Q]; cbn [negb]; [|reflexivity].
    apply IH; [|lia]. split; [lia|].
    assert (port <> 17) by (intros ->; cbv in Q; discriminate Q). lia. }
  apply G; lia.
Qed.
Print Assumptions C23_port_list_over_16.

(** A network handle of a port is mapped to that port, any other handle to 0. *)
Theorem C23_port_number : forall handles h, NoDup handles ->
  (forall k, (k < length handles)%nat -> nth k handles 0 = h -> port_number handles h = Z.of_nat k + 1) /\
  (~ In h handles -> port_number handles h = 0).
Proof.
  intros handles h ND. unfold port_number. split.
  - assert (G : forall p k, (k < length handles)%nat -> nth k handles 0 = h -> port_number_from p handles h = Z.of_nat k + p).
    { induction ND as [|x r NI ND IH]; intros p k L E; [cbn in L; lia|]. cbn [port_number_from length] in *.
      destruct k as [|k]; cbn [nth] in E.
      - subst x. rewrite Z.eqb_refl. lia.
      - destruct (Z.eqb_spec x h) as [->|NE].
        + exfalso. apply NI. rewrite <- E. apply nth_In. lia.
        + rewrite (IH (p + 1) k) by (auto; lia). lia. }
    intros k L E. apply G; auto.
  - intros NI. clear ND. generalize 1. induction handles as [|x r IH]; intros p; [reflexivity|]. cbn [port_number_from].
    destruct (Z.eqb_spec x h) as [->|NE]; [exfalso; apply NI; left; auto|]. apply IH. intros A. apply NI. right; auto.
Qed.
Print Assumptions C23_port_number.

Example ex_ports : calls get_next 5 (iter_init 3) = [1; 2; 3; 0; 0]
  /\ calls get_next_cyclic 5 (iter_init 2) = [1; 2; 1; 2; 1]
  /\ port_to_subslot 2 2 = Ok 32770 /\ subslot_to_port 2 32771 = 0.
Proof. repeat split. Qed.
