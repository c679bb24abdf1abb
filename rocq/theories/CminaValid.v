(** Lemmas on the validation of station names and IP suites. *)
From Coq Require Import List ZArith Arith Bool Lia.
From Verif Require Import Base CminaModel CminaSpec.
Import ListNotations.
Local Open Scope Z_scope.

(** ** Names *)

Lemma isdigit_spec : forall c, isdigit c = true <-> is_digit c.
Proof. intros; unfold isdigit, is_digit. rewrite andb_true_iff, !Z.leb_le. tauto. Qed.
Lemma islower_spec : forall c, islower c = true <-> is_lower c.
Proof. intros; unfold islower, is_lower. rewrite andb_true_iff, !Z.leb_le. tauto. Qed.
Lemma char_spec : forall c, islower c || isdigit c || (c =? hyphen) = true <-> label_char c.
Proof.
  intros; unfold label_char. rewrite !orb_true_iff, isdigit_spec, islower_spec, Z.eqb_eq.
  unfold hyphen. tauto.
Qed.

Lemma labels_cons : forall s, exists l t, labels s = l :: t.
Proof.
  destruct s as [|c r]; cbn; [eauto|].
  destruct (c =? 46); [eauto|]. destruct (labels r); eauto.
Qed.

(** The first label when [off] characters of it, the last of which is [prev], have
    been read. *)
Definition first_ok (off prev : Z) (l : list Z) : Prop :=
  off + Z.of_nat (length l) <= 63 /\ Forall label_char l /\ (off = 0 -> hd 0 l <> 45) /\
  last l prev <> 45.
Definition labels_ok (off prev : Z) (ls : list (list Z)) : Prop :=
  match ls with
  | l :: t => first_ok off prev l /\ Forall label_ok t
  | [] => True
  end.

Lemma last_cons : forall (r : list Z) c p, last (c :: r) p = last r c.
Proof.
  induction r as [|d r IH]; intros; [reflexivity|].
  change (last (c :: d :: r) p) with (last (d :: r) p). now rewrite !IH.
Qed.

Lemma first_ok_0 : forall l, first_ok 0 46 l <-> label_ok l.
Proof.
  intros; unfold first_ok, label_ok. destruct l as [|c r].
  - cbn. intuition lia.
  - rewrite !last_cons. intuition lia.
Qed.

Lemma loop_spec : forall s off prev nl nd, 0 <= off <= 63 ->
  (exists p n d, name_loop s off prev nl nd = Some (p, n, d) /\ p <> 45) <->
  labels_ok off prev (labels s).
Proof.
  induction s as [|c r IH]; intros off prev nl nd Hoff; cbn [name_loop labels].
  - unfold labels_ok, first_ok. cbn. split.
    + intros (p & n & d & E & H). inversion E; subst. repeat split; try constructor; try lia; auto.
    + intros [(_ & _ & _ & H) _]. eauto.
  - unfold dot, hyphen. destruct (Z.eqb_spec c 46) as [->|Hc].
    + destruct (Z.eqb_spec prev 45) as [->|Hp].
      * split; [intros (p & n & d & E & _); discriminate|].
        cbn. intros [(_ & _ & _ & H) _]. cbn in H. congruence.
      * rewrite IH by lia. unfold labels_ok at 2. destruct (labels_cons r) as (l & t & E).
        rewrite E. cbn. rewrite first_ok_0. unfold first_ok at 1. cbn.
        split.
        -- intros [A B]. split; [|constructor; assumption]. repeat split; try constructor; try lia; auto.
        -- intros [_ B]. inversion B; auto.
    + destruct (labels_cons r) as (l & t & E). rewrite E.
      specialize (IH (off + 1) c nl (if isdigit c then nd else nd + 1)).
      pose proof (char_spec c) as HC. unfold hyphen in HC.
      destruct (islower c || isdigit c || (c =? 45)) eqn:Ec; cbn [negb].
      2:{ split; [intros (p & n & d & F & _); discriminate|].
          intros [(_ & F & _) _]. inversion F as [|? ? F1]; subst. apply HC in F1. discriminate. }
      destruct ((off =? 0) && (c =? 45)) eqn:E0.
      { split; [intros (p & n & d & F & _); discriminate|].
        apply andb_true_iff in E0. rewrite !Z.eqb_eq in E0. destruct E0 as [-> ->].
        intros [(_ & _ & F & _) _]. cbn in F. exfalso; now apply F. }
      destruct (Z.leb_spec 63 off).
      { split; [intros (p & n & d & F & _); discriminate|].
        intros [(F & _) _]. cbn [length] in F. lia. }
      rewrite IH by lia. unfold labels_ok. rewrite E. unfold first_ok. rewrite last_cons.
      cbn [length hd].
      split.
      * intros [(A & B & C & D) F]. split; [|assumption].
        split; [lia|]. split; [constructor; [now apply HC|assumption]|].
        split; [|assumption]. intros ->. cbn in E0. apply Z.eqb_neq in E0. assumption.
      * intros [(A & B & C & D) F]. inversion B; subst. split; [|assumption].
        repeat split; try assumption; try lia.
Qed.

Lemma loop_counts : forall s off prev nl nd p n d, 0 <= nd ->
  name_loop s off prev nl nd = Some (p, n, d) ->
  n = nl + Z.of_nat (length (labels s)) - 1 /\ nd <= d /\
  (d = nd <-> Forall (Forall is_digit) (labels s)).
Proof.
  induction s as [|c r IH]; intros off prev nl nd p n d Hnd; cbn [name_loop labels].
  - intros E; inversion E; subst. cbn. split; [lia|]. split; [lia|].
    split; intros; auto. 
  - unfold dot, hyphen. destruct (Z.eqb_spec c 46) as [->|Hc].
    + destruct (prev =? 45); [discriminate|]. intros E.
      destruct (IH _ _ _ _ _ _ _ Hnd E) as (A & B & C). cbn [length]. split; [lia|].
      split; [assumption|]. rewrite C. split; intros F.
      * constructor; [constructor|assumption].
      * inversion F; assumption.
    + destruct (negb _); [discriminate|]. destruct (_ && _); [discriminate|].
      destruct (63 <=? off); [discriminate|]. intros E.
      destruct (labels_cons r) as (l & t & El). rewrite El.
      apply IH in E as (A & B & C); [|destruct (isdigit c); lia]. rewrite El in A, C.
      cbn [length] in *. split; [lia|].
      destruct (isdigit c) eqn:Ed.
      * split; [assumption|]. rewrite C. split; intros F; inversion F; subst; constructor; auto.
        -- constructor; [now apply isdigit_spec|assumption].
        -- match goal with H : Forall is_digit (c :: l) |- _ => inversion H; assumption end.
      * split; [lia|]. split; [lia|]. intros F. inversion F; subst.
        match goal with H : Forall is_digit (c :: l) |- _ => inversion H; subst end.
        match goal with H : is_digit c |- _ => apply isdigit_spec in H end. congruence.
Qed.

(** What pf_cmina_is_stationname_valid accepts. *)
Definition accepted (s : list Z) : Prop :=
  (length s <= 240)%nat /\ Forall label_ok (labels s) /\
  ~ (length (labels s) = 4%nat /\ Forall (Forall is_digit) (labels s)) /\
  ~ (firstn 5 s = [112; 111; 114; 116; 45] /\ (length s = 8%nat \/ length s = 14%nat) /\
     Forall (fun c => is_digit c \/ c = 45) (skipn 5 s)).

Lemma labels_ok_all : forall ls, labels_ok 0 97 ls <-> Forall label_ok ls.
Proof.
  destruct ls as [|l t]; cbn; [split; auto|].
  assert (first_ok 0 97 l <-> label_ok l) as H.
  { rewrite <- first_ok_0. unfold first_ok. destruct l as [|c r].
    - cbn. intuition lia.
    - rewrite !last_cons. tauto. }
  rewrite H. split; [intros []; constructor; assumption|intros F; inversion F; auto].
Qed.

Lemma list_eqb_spec : forall a b, list_eqb a b = true <-> a = b.
Proof. intros; unfold list_eqb. destruct (list_eq_dec Z.eq_dec a b); split; congruence. Qed.

Lemma labels_hd : forall s, hd 0 s <> 46 -> hd 0 (hd [] (labels s)) = hd 0 s.
Proof.
  destruct s as [|c r]; intros H; [reflexivity|]. cbn in *.
  destruct (Z.eqb_spec c 46); [congruence|]. destruct (labels r); reflexivity.
Qed.

Lemma valid_spec : forall s, stationname_valid s = true <-> s = [] \/ accepted s.
Proof.
  intros s. destruct s as [|c0 r]; [cbn; tauto|].
  unfold stationname_valid. set (s := c0 :: r).
  assert (Hpre : list_eqb (firstn 5 s) port_prefix
              && ((length s =? 8)%nat || (length s =? 14)%nat)
              && forallb (fun c => isdigit c || (c =? hyphen)) (skipn 5 s) = true <->
     firstn 5 s = [112; 111; 114; 116; 45] /\ (length s = 8%nat \/ length s = 14%nat) /\
     Forall (fun c => is_digit c \/ c = 45) (skipn 5 s)).
  { rewrite !andb_true_iff, list_eqb_spec, orb_true_iff, !Nat.eqb_eq, forallb_forall, Forall_forall.
    unfold port_prefix.
    assert (Q : (forall x, In x (skipn 5 s) -> isdigit x || (x =? hyphen) = true) <->
                (forall x, In x (skipn 5 s) -> is_digit x \/ x = 45)).
    { split; intros H x Hx; specialize (H x Hx);
        rewrite orb_true_iff, isdigit_spec, Z.eqb_eq in *; assumption. }
    rewrite Q. tauto. }
  pose proof (loop_spec s 0 97 1 0 ltac:(lia)) as L. rewrite labels_ok_all in L.
  pose proof (loop_counts s 0 97 1 0) as N.
  assert (NE : s <> []) by discriminate.
  unfold accepted. split.
  - intros H. right. destruct ((c0 =? hyphen) || (241 <=? Z.of_nat (length s))) eqn:E1; [discriminate|].
    apply orb_false_iff in E1 as [E1 E2]. apply Z.leb_gt in E2.
    destruct (list_eqb (firstn 5 s) port_prefix && _ && _) eqn:E3; [discriminate|].
    destruct (name_loop s 0 97 1 0) as [[[p n] d]|] eqn:E4; [|discriminate].
    destruct ((n =? 4) && (d =? 0)) eqn:E5; [discriminate|].
    destruct (Z.eqb_spec p hyphen); [discriminate|].
    destruct (N _ _ _ ltac:(lia) eq_refl) as (N1 & N2 & N3).
    split; [lia|]. split; [apply L; eauto|]. split.
    + intros [A B]. apply N3 in B. rewrite A in N1. cbn in N1. subst.
      cbn in E5. discriminate.
    + intros A. apply Hpre in A. congruence.
  - intros [H|(A & B & C & D)]; [congruence|].
    assert (E1 : (c0 =? hyphen) || (241 <=? Z.of_nat (length s)) = false).
    { apply orb_false_iff. split; [|apply Z.leb_gt; lia]. apply Z.eqb_neq. intros ->.
      destruct (labels_cons s) as (l & t & E). rewrite E in B. inversion B as [|? ? (_ & _ & B1 & _)]; subst.
      pose proof (labels_hd s) as Q. rewrite E in Q. cbn [hd] in Q. apply B1, Q. cbn. unfold hyphen. lia. }
    rewrite E1.
    destruct (list_eqb (firstn 5 s) port_prefix && _ && _) eqn:E3; [exfalso; apply D, Hpre, eq_refl|].
    apply L in B as (p & n & d & E4 & B). rewrite E4.
    destruct (N _ _ _ ltac:(lia) E4) as (N1 & N2 & N3).
    destruct ((n =? 4) && (d =? 0)) eqn:E5.
    { apply andb_true_iff in E5 as [E5 E6]. apply Z.eqb_eq in E5, E6. exfalso; apply C.
      split; [lia|]. now apply N3. }
    apply Z.eqb_neq in B. unfold hyphen. now rewrite B.
Qed.

(** ** Addresses *)

(** The network masks with n of 32 bits set. *)
Definition mask_bits (j : Z) : Z := 4294967296 - 2 ^ j.

Lemma testbit_small : forall m n i, 0 <= m < 2 ^ n -> 0 <= n <= i -> Z.testbit m i = false.
Proof.
  intros m n i [H0 H1] [Hn Hi]. destruct (Z.eq_dec m 0) as [->|]; [apply Z.bits_0|].
  apply Z.bits_above_log2; [assumption|]. apply Z.log2_lt_pow2; [lia|].
  eapply Z.lt_le_trans; [eassumption|]. apply Z.pow_le_mono_r; lia.
Qed.

Lemma prefix_mask : forall n m, 0 <= m < 2 ^ Z.of_nat n ->
  (forall i, 0 <= i -> i + 1 < Z.of_nat n -> Z.testbit m i = true -> Z.testbit m (i + 1) = true) ->
  exists j, 0 <= j <= Z.of_nat n /\ m = 2 ^ Z.of_nat n - 2 ^ j.
Proof.
  induction n as [|n IH]; intros m Hm P.
  - exists 0. cbn in *. split; lia.
  - rewrite Nat2Z.inj_succ in *. unfold Z.succ in *.
    assert (E2 : 2 ^ (Z.of_nat n + 1) = 2 * 2 ^ Z.of_nat n) by (rewrite Z.pow_add_r; lia).
    destruct (Z.testbit m (Z.of_nat n)) eqn:Eb.
    + assert (Hge : 2 ^ Z.of_nat n <= m).
      { destruct (Z_lt_le_dec m (2 ^ Z.of_nat n)); [|assumption].
        rewrite (testbit_small m (Z.of_nat n)) in Eb by lia. discriminate. }
      destruct (IH (m - 2 ^ Z.of_nat n)) as (j & Hj & Ej).
      * lia.
      * assert (Hlow : forall i, 0 <= i < Z.of_nat n ->
                  Z.testbit (m - 2 ^ Z.of_nat n) i = Z.testbit m i).
        { intros i Hi. rewrite <- (Z.mod_pow2_bits_low m (Z.of_nat n) i) by lia.
          replace (m - 2 ^ Z.of_nat n) with (m mod 2 ^ Z.of_nat n); [reflexivity|].
          symmetry. apply Z.mod_unique with 1; lia. }
        intros i Hi Hi1 Hb. rewrite Hlow in * by lia. apply P; try lia. assumption.
      * exists j. split; [lia|]. lia.
    + assert (Hz : forall d i, (i + d = n)%nat -> Z.testbit m (Z.of_nat i) = false).
      { induction d as [|d IHd]; intros i Hi.
        - replace i with n by lia. assumption.
        - destruct (Z.testbit m (Z.of_nat i)) eqn:E; [|reflexivity].
          apply P in E; try lia. replace (Z.of_nat i + 1) with (Z.of_nat (S i)) in E by lia.
          rewrite IHd in E by lia. discriminate. }
      exists (Z.of_nat n + 1). split; [lia|].
      replace m with 0; [lia|]. apply Z.bits_inj'. intros i Hi. rewrite Z.bits_0. symmetry.
      destruct (Z_lt_le_dec i (Z.of_nat n + 1)).
      * replace i with (Z.of_nat (Z.to_nat i)) by lia. apply (Hz (n - Z.to_nat i)%nat). lia.
      * apply (testbit_small m (Z.of_nat n + 1)); lia.
Qed.

Lemma not32_eq : forall m, 0 <= m < 4294967296 -> not32 m = 4294967295 - m.
Proof.
  intros m H. unfold not32, u32, Z.lnot. symmetry. apply Z.mod_unique with (-1); lia.
Qed.
Lemma not32_bit : forall m i, 0 <= m < 4294967296 -> 0 <= i < 32 ->
  Z.testbit (not32 m) i = negb (Z.testbit m i).
Proof.
  intros m i Hm Hi. unfold not32, u32. change 4294967296 with (2 ^ 32).
  rewrite Z.mod_pow2_bits_low by lia. now rewrite Z.lnot_spec by lia.
Qed.

Lemma range33 : forall (P : Z -> bool), forallb P (map Z.of_nat (seq 0 33)) = true ->
  forall j, 0 <= j <= 32 -> P j = true.
Proof.
  intros P H j Hj. rewrite forallb_forall in H. apply H. apply in_map_iff.
  exists (Z.to_nat j). split; [lia|]. apply in_seq. lia.
Qed.

Lemma netmask_spec : forall m, 0 <= m < 4294967296 ->
  (netmask_valid m = true <-> exists j, 0 <= j <= 32 /\ m = mask_bits j).
Proof.
  intros m Hm. unfold netmask_valid. rewrite Z.eqb_eq. split.
  - intros H. destruct (prefix_mask 32 m) as (j & Hj & E).
    + exact Hm.
    + intros i Hi Hi1 Hb. change (Z.of_nat 32) with 32 in Hi1.
      assert (Q : Z.testbit (Z.land m (Z.shiftr (not32 m) 1)) i = false) by (rewrite H; apply Z.bits_0).
      rewrite Z.land_spec, Hb, Z.shiftr_spec in Q by lia. cbn in Q.
      rewrite not32_bit in Q by lia. now destruct (Z.testbit m (i + 1)).
    + exists j. split; [lia|]. exact E.
  - intros (j & Hj & ->). clear Hm.
    apply Z.eqb_eq. revert j Hj.
    apply (range33 (fun j => Z.land (mask_bits j) (Z.shiftr (not32 (mask_bits j)) 1) =? 0)).
    vm_compute. reflexivity.
Qed.

Lemma pow_pos : forall j, 0 <= j <= 32 -> 0 < 2 ^ j <= 4294967296.
Proof.
  intros j H. split; [apply Z.pow_pos_nonneg; lia|].
  change 4294967296 with (2 ^ 32). apply Z.pow_le_mono_r; lia.
Qed.
Lemma mask_range : forall j, 0 <= j <= 32 -> 0 <= mask_bits j < 4294967296.
Proof. intros j H. pose proof (pow_pos j H). unfold mask_bits. lia. Qed.

Lemma not_mask : forall j, 0 <= j <= 32 -> not32 (mask_bits j) = 2 ^ j - 1.
Proof.
  intros j H. rewrite not32_eq by now apply mask_range. unfold mask_bits. lia.
Qed.
Lemma host_part : forall ip j, 0 <= j <= 32 -> Z.land ip (not32 (mask_bits j)) = ip mod 2 ^ j.
Proof.
  intros. rewrite not_mask by assumption. replace (2 ^ j - 1) with (Z.ones j) by (rewrite Z.ones_equiv; lia).
  now rewrite Z.land_ones by lia.
Qed.

Lemma net_part : forall ip j, 0 <= ip < 4294967296 -> 0 <= j <= 32 ->
  Z.land ip (mask_bits j) = 2 ^ j * (ip / 2 ^ j).
Proof.
  intros ip j Hip Hj. pose proof (pow_pos j Hj).
  assert (E : ip = Z.land ip (mask_bits j) + Z.land ip (not32 (mask_bits j))).
  { assert (Dj : Z.land (Z.land ip (mask_bits j)) (Z.land ip (not32 (mask_bits j))) = 0).
    { apply Z.bits_inj'. intros i Hi. rewrite !Z.land_spec, Z.bits_0.
      destruct (Z_lt_le_dec i 32).
      - rewrite not32_bit by (try apply mask_range; lia). destruct (Z.testbit ip i), (Z.testbit (mask_bits j) i); reflexivity.
      - rewrite (testbit_small ip 32) by (change (2 ^ 32) with 4294967296; lia). reflexivity. }
    rewrite Z.add_nocarry_lxor by assumption.
    apply Z.bits_inj'. intros i Hi. rewrite Z.lxor_spec, !Z.land_spec.
    destruct (Z_lt_le_dec i 32).
    - rewrite not32_bit by (try apply mask_range; lia). destruct (Z.testbit ip i), (Z.testbit (mask_bits j) i); reflexivity.
    - rewrite (testbit_small ip 32) by (change (2 ^ 32) with 4294967296; lia). reflexivity. }
  rewrite host_part in E by assumption.
  pose proof (Z.div_mod ip (2 ^ j) ltac:(lia)). lia.
Qed.
