(** Invariants of the station settings. *)
From Coq Require Import List ZArith Arith Bool Lia.
From Verif Require Import Base CminaModel CminaSpec CminaValid.
Import ListNotations.
Local Open Scope Z_scope.

Lemma in_labels : forall s c, In c s -> c = 46 \/ exists l, In l (labels s) /\ In c l.
Proof.
  induction s as [|x r IH]; intros c H; [destruct H|]. cbn [labels].
  destruct (Z.eqb_spec x 46) as [E|E].
  - destruct H as [->|H]; [auto|]. destruct (IH c H) as [?|(l & L1 & L2)]; [auto|].
    right. exists l. split; [right|]; assumption.
  - destruct (labels_cons r) as (l & t & El). rewrite El in *.
    destruct H as [->|H].
    + right. exists (c :: l). split; left; reflexivity.
    + destruct (IH c H) as [?|(l' & L1 & L2)]; [auto|]. right.
      destruct L1 as [<-|L1]; [exists (x :: l); split; [left; reflexivity|right; assumption]|].
      exists l'. split; [right|]; assumption.
Qed.

Lemma valid_no0 : forall v, stationname_valid v = true -> ~ In 0 v /\ (length v <= 240)%nat.
Proof.
  intros v H. apply valid_spec in H as [->|(A & B & _)]; [cbn; split; [auto|lia]|].
  split; [|assumption]. intros H. apply in_labels in H as [H|(l & L1 & L2)]; [discriminate|].
  rewrite Forall_forall in B. destruct (B l L1) as (_ & F & _). rewrite Forall_forall in F.
  specialize (F 0 L2). unfold label_char, is_lower, is_digit in F. lia.
Qed.

Lemma cstr_app : forall w r, ~ In 0 w -> cstr (w ++ 0 :: r) = w.
Proof.
  induction w as [|c w IH]; intros r H; cbn [app cstr]; [reflexivity|].
  destruct (Z.eqb_spec c 0) as [->|]; [exfalso; apply H; left; reflexivity|].
  f_equal. apply IH. intros K. apply H. right; assumption.
Qed.

Lemma cstr_id : forall w, ~ In 0 w -> cstr w = w.
Proof.
  induction w as [|c w IH]; intros H; cbn [cstr]; [reflexivity|].
  destruct (Z.eqb_spec c 0) as [->|]; [exfalso; apply H; left; reflexivity|].
  f_equal. apply IH. intros K. apply H. right; assumption.
Qed.

Lemma put_eq : forall v a, ~ In 0 v -> put_name v a = v ++ 0 :: skipn (S (length v)) a.
Proof.
  intros v a H. unfold put_name. rewrite cstr_id, Nat.sub_diag by assumption. reflexivity.
Qed.

Lemma no_name_cstr : cstr no_name = [].
Proof. reflexivity. Qed.
Lemma no_name_good : good_name no_name.
Proof.
  split; [reflexivity|]. split; [left; reflexivity|reflexivity].
Qed.

Lemma put_good : forall v a, stationname_valid v = true -> length a = 241%nat ->
  good_name (put_name v a) /\ cstr (put_name v a) = v.
Proof.
  intros v a V L. destruct (valid_no0 v V) as [N0 N1].
  rewrite put_eq by assumption. rewrite cstr_app by assumption. split; [|reflexivity].
  unfold good_name. rewrite cstr_app by assumption. split; [|split; [|assumption]].
  - rewrite app_length. cbn [length]. rewrite skipn_length. lia.
  - apply in_or_app. right. left. reflexivity.
Qed.

Lemma copy_good : forall v a, good_name v -> length a = 241%nat ->
  good_name (copy_name v a) /\ cstr (copy_name v a) = cstr v.
Proof.
  intros v a (L & I0 & V) La. unfold copy_name. destruct (valid_no0 _ V) as [N0 N1]. cbn [app].
  rewrite cstr_app by assumption. split; [|reflexivity].
  unfold good_name. rewrite cstr_app by assumption. split; [|split; [|assumption]].
  - rewrite app_length. cbn [length]. rewrite skipn_length. lia.
  - apply in_or_app. right. left. reflexivity.
Qed.

Lemma terminate_good : forall a, good_name a ->
  good_name (terminate a) /\ cstr (terminate a) = cstr a.
Proof.
  intros a (L & I0 & V). destruct (valid_no0 _ V) as [N0 N1].
  assert (E : exists r, a = cstr a ++ 0 :: r).
  { clear - I0. induction a as [|c a IH]; [destruct I0|]. cbn [cstr].
    destruct (Z.eqb_spec c 0) as [->|N]; [exists a; reflexivity|].
    destruct IH as [r E]; [destruct I0; [congruence|assumption]|]. exists r. cbn. now f_equal. }
  destruct E as [r E]. remember (cstr a) as w.
  assert (T : exists r', terminate a = w ++ 0 :: r').
  { unfold terminate, name_size. rewrite E, firstn_app.
    rewrite firstn_all2 by lia.
    destruct (Nat.eq_dec (length w) 240) as [E2|E2].
    - rewrite E2. cbn. rewrite app_nil_r. exists []. reflexivity.
    - replace (241 - 1 - length w)%nat with (S (239 - length w)) by lia. cbn [firstn].
      rewrite <- app_assoc. cbn [app]. eauto. }
  destruct T as [r' T].
  assert (C : cstr (terminate a) = w) by (rewrite T; now apply cstr_app).
  split; [|assumption]. split; [|split; [|now rewrite C]].
  - unfold terminate, name_size. rewrite app_length, firstn_length. cbn [length]. lia.
  - unfold terminate. apply in_or_app. right; left; reflexivity.
Qed.

(** Names and suites that are stored are valid. *)
Definition good_ase (a : ase) : Prop :=
  good_name (a_name a) /\ ipsuite_valid (a_suite a) = true.
Definition good (s : cst) : Prop :=
  good_ase (cur s) /\ good_ase (nv s) /\ match file s with Some f => good_ase f | None => True end.

Lemma ase0_good : good_ase ase0.
Proof. split; [apply no_name_good|reflexivity]. Qed.

Lemma land1 : forall q, (Z.land q 1 =? 0) = negb (Z.odd q).
Proof.
  intros q. change 1 with (Z.ones 1). rewrite Z.land_ones by lia. change (2 ^ 1) with 2.
  rewrite Zmod_odd. now destruct (Z.odd q).
Qed.

(** What is kept. *)
Definition of_ase (a : ase) : list Z * suite := (cstr (a_name a), a_suite a).
Definition abs (s : cst) : store :=
  mkStore (cstr (a_name (nv s))) (a_suite (nv s)) (option_map of_ase (file s)).

Lemma default_good : forall k m s, good_cfg k -> good s -> 0 <= m ->
  good (set_default_cfg k m s) /\ abs (set_default_cfg k m s) = reset_store k m (abs s) /\
  nv (set_default_cfg k m s) = cur (set_default_cfg k m s).
Proof.
  intros k m s (K1 & K2) (G1 & G2 & G3) Hm. unfold set_default_cfg, reset_store.
  destruct (Z.eqb_spec m 0) as [->|N0].
  - cbn [Z.eqb Z.leb Z.compare Pos.compare Pos.compare_cont Z.ltb orb].
    destruct (file s) as [f|] eqn:Ef; unfold abs, good, with_nv, with_cur, cemit;
      cbn [cur nv file a_name a_suite]; rewrite Ef; cbn [option_map power_up saved].
    + destruct G3 as [G3 G4]. destruct (terminate_good _ G3) as [T1 T2]. rewrite T2.
      split; [|split; reflexivity]. repeat (split; [split; assumption|]). split; assumption.
    + destruct (terminate_good _ K1) as [T1 T2]. rewrite T2.
      split; [|split; reflexivity]. repeat (split; [split; assumption|]). exact I.
  - destruct (Z.eqb_spec m 1) as [->|N1].
    + cbn. unfold abs, good. cbn. split; [|split; reflexivity]. repeat split; try apply G2.
      destruct (file s); [apply G3|exact I].
    + assert (E : (m =? 2) || (3 <=? m) = true).
      { destruct (Z.eqb_spec m 2); [reflexivity|]. apply Z.leb_le. lia. }
      rewrite E. cbn [orb]. destruct (3 <=? m), (0 <? m);
        (split; [repeat (split; [apply ase0_good|]); exact I|split; reflexivity]).
Qed.

Lemma commit_same : forall s, cur (set_commit s) = cur s /\ nv (set_commit s) = nv s /\
  file (set_commit s) = file s.
Proof. intros s. unfold set_commit. destruct (commit s); auto. Qed.

Lemma init_good : forall k room f, good_cfg k -> match f with Some f => good_ase f | None => True end ->
  good (cinit k room f) /\
  of_ase (cur (cinit k room f)) = power_up k (option_map of_ase f) /\
  nv (cinit k room f) = cur (cinit k room f) /\ file (cinit k room f) = f.
Proof.
  intros k room f K F. unfold cinit.
  set (s0 := mkCst ase0 ase0 Setup false 0 false f 0 []).
  assert (G : good s0) by (repeat (split; [apply ase0_good|]); exact F).
  destruct (default_good k 0 s0 K G ltac:(lia)) as (D1 & D2 & D3).
  assert (D4 : file (set_default_cfg k 0 s0) = f).
  { unfold set_default_cfg, s0. cbn. destruct f; reflexivity. }
  set (s1 := set_default_cfg k 0 s0) in *. clearbody s1.
  assert (R : forall t, cur t = cur s1 -> nv t = nv s1 -> file t = file s1 ->
    good (set_commit t) /\ of_ase (cur (set_commit t)) = power_up k (option_map of_ase f) /\
    nv (set_commit t) = cur (set_commit t) /\ file (set_commit t) = f).
  { intros t T1 T2 T3. destruct (commit_same t) as (C1 & C2 & C3). unfold good.
    rewrite C1, C2, C3, T1, T2, T3, D4. split; [unfold good in D1; rewrite D4 in D1; assumption|]. split; [|split; [assumption|reflexivity]].
    pose proof (f_equal kept_name D2) as E1. pose proof (f_equal kept_suite D2) as E2.
    change (kept_name (reset_store k 0 (abs s0))) with (fst (power_up k (option_map of_ase f))) in E1.
    change (kept_suite (reset_store k 0 (abs s0))) with (snd (power_up k (option_map of_ase f))) in E2.
    rewrite <- D3.
    rewrite (surjective_pairing (power_up k (option_map of_ase f))), <- E1, <- E2. reflexivity. }
  destruct (have_name (cur s1)); cbn [negb]; [destruct (have_ip (cur s1)); cbn [negb]|].
  - destruct (k_hello k); apply R; reflexivity.
  - destruct (k_dhcp k); apply R; reflexivity.
  - destruct (k_dhcp k); apply R; reflexivity.
Qed.

Lemma apply_same : forall ci cn r s, cur (snd (set_apply ci cn r s)) = cur s /\
  nv (snd (set_apply ci cn r s)) = nv s /\ file (snd (set_apply ci cn r s)) = file s.
Proof.
  intros ci cn r [cu n cc co he ht fi cons tr]. unfold set_apply.
  cbn [cemit cur nv cs commit hellos hello_timer file conns ctr].
  destruct (have_name cu), (have_ip cu), ci, cn, r, cc; try (destruct cons);
    cbv [negb orb andb cs with_cs with_commit cemit abort_ars conns fst snd with_conns Nat.eqb
           cur nv file have_name have_ip]; auto.
Qed.

Definition quals_ok (e : cinput) : Prop :=
  match e with NSet l => Forall (fun b => 0 <= snd b) l | _ => True end.

Lemma ind_good : forall k r q s, good_cfg k -> good s -> 0 <= q ->
  good (snd (set_ind k r q s)) /\ abs (snd (set_ind k r q s)) = keep_block k r q (abs s).
Proof.
  intros k r q s K (G1 & G2 & G3) Hq. unfold set_ind.
  set (s1 := with_hello (hellos s) false s).
  assert (S1 : cur s1 = cur s /\ nv s1 = nv s /\ file s1 = file s) by auto.
  clearbody s1. destruct S1 as (S1 & S2 & S3).
  assert (H1 : good s1) by (unfold good; now rewrite S1, S2, S3).
  assert (A1 : abs s1 = abs s) by (unfold abs; now rewrite S2, S3).
  destruct r as [v|v| |]; cbn [set_parse keep_block].
  - destruct (ipsuite_valid v) eqn:V; [|cbn [snd]; auto].
    match goal with |- context [set_apply ?a ?b ?c ?d] =>
      destruct (apply_same a b c d) as (P1 & P2 & P3); destruct (set_apply a b c d) as [ok t] end.
    cbn [snd] in *. cbn [cur nv file with_cur with_nv a_name a_suite] in P1, P2, P3.
    split.
    + unfold good. rewrite P1, P2, P3, S1, S2, S3. cbn [a_name a_suite].
      split; [split; [apply G1|assumption]|]. split; [|assumption].
      split; [apply G2|]. cbn [a_suite]. destruct (Z.land q 1 =? 0); [reflexivity|assumption].
    + unfold abs. rewrite P2, P3, S2, S3. cbn [a_name a_suite kept_name saved].
      rewrite land1. destruct (Z.odd q); reflexivity.
  - destruct (stationname_valid v) eqn:V.
    2:{ destruct (length v <? name_size)%nat; cbn [snd]; auto. }
    destruct (valid_no0 v V) as [N0 N1].
    assert (L : (length v <? name_size)%nat = true) by (apply Nat.ltb_lt; unfold name_size; lia).
    rewrite L.
    match goal with |- context [set_apply ?a ?b ?c ?d] =>
      destruct (apply_same a b c d) as (P1 & P2 & P3); destruct (set_apply a b c d) as [ok t] end.
    cbn [snd] in *. cbn [cur nv file with_cur with_nv a_name a_suite] in P1, P2, P3.
    destruct (put_good v (a_name (cur s)) V ltac:(apply G1)) as [U1 U2].
    destruct (copy_good _ (a_name (nv s)) U1 ltac:(apply G2)) as [C1 C2].
    split.
    + unfold good. rewrite P1, P2, P3, S1, S2, S3. cbn [a_name a_suite].
      split; [split; [exact U1|apply G1]|]. split; [|assumption].
      split; [|apply G2]. cbn [a_name]. destruct (Z.land q 1 =? 0); [apply no_name_good|assumption].
    + unfold abs. rewrite P2, P3, S1, S2, S3. cbn [a_name a_suite kept_suite saved].
      rewrite land1. destruct (Z.odd q); cbn [negb]; [now rewrite C2, U2|now rewrite no_name_cstr].
  - destruct (apply_same false false (Some 99) s1) as (P1 & P2 & P3).
    destruct (set_apply false false (Some 99) s1) as [ok t]. cbn [snd] in *.
    assert (H2 : good t) by (unfold good; now rewrite P1, P2, P3).
    destruct (default_good k 99 t K H2 ltac:(lia)) as (D1 & D2 & _). split; [assumption|].
    rewrite D2. reflexivity.
  - set (m := Z.shiftr q 1).
    assert (Em : m = q / 2) by (unfold m; rewrite Z.shiftr_div_pow2 by lia; reflexivity).
    clearbody m. destruct (apply_same false false (Some m) s1) as (P1 & P2 & P3).
    destruct (set_apply false false (Some m) s1) as [ok t]. cbn [snd] in *.
    assert (H2 : good t) by (unfold good; now rewrite P1, P2, P3).
    assert (H3 : 0 <= m) by (rewrite Em; apply Z.div_pos; lia).
    destruct (default_good k m t K H2 H3) as (D1 & D2 & _). split; [assumption|].
    rewrite D2, Em. f_equal. rewrite <- A1. unfold abs. now rewrite P2, P3.
Qed.

Lemma blocks_good : forall k l s, good_cfg k -> good s -> Forall (fun b => 0 <= snd b) l ->
  good (set_blocks k l s) /\
  abs (set_blocks k l s) = fold_left (fun s b => keep_block k (fst b) (snd b) s) l (abs s).
Proof.
  intros k l. induction l as [|[r q] l IH]; intros s K G F; cbn [set_blocks fold_left]; [auto|].
  inversion F as [|x y Q F']; subst. cbn [snd fst] in *.
  destruct (ind_good k r q s K G Q) as [G1 A1]. rewrite <- A1. now apply IH.
Qed.

Lemma step_good : forall k e s, good_cfg k -> good s -> quals_ok e ->
  good (cstep k e s) /\ abs (cstep k e s) = keep_event k e (abs s).
Proof.
  intros k e s K G Q. destruct e as [l|room| |n|room]; cbn [cstep keep_event].
  - destruct (blocks_good k l s K G Q) as [G1 A1].
    destruct (commit_same (set_blocks k l s)) as (C1 & C2 & C3).
    unfold good, abs. rewrite C1, C2, C3. auto.
  - destruct (hello_timer s); [|auto]. unfold send_hello.
    destruct (cs s), (hellos s); auto.
  - destruct G as (G1 & G2 & G3). split; [|reflexivity]. split; [assumption|]. split; assumption.
  - auto.
  - destruct (init_good k room (file s) K) as (I1 & I2 & I3 & I4); [apply G|].
    split; [exact I1|]. unfold abs. cbn [nv file]. rewrite I3, I4. cbn [saved].
    rewrite <- I2. reflexivity.
Qed.

Lemma run_good : forall k es s, good_cfg k -> good s -> Forall quals_ok es ->
  good (crun k es s) /\ abs (crun k es s) = keep_run k es (abs s).
Proof.
  intros k es. induction es as [|e es IH]; intros s K G F; cbn [crun]; [auto|].
  inversion F as [|x y Q F']; subst. destruct (step_good k e s K G Q) as [G1 A1].
  unfold keep_run. cbn [fold_left]. rewrite <- A1. now apply IH.
Qed.
