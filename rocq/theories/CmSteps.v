(** Every step of CmModel.v from a state that satisfies the invariant is a
    sequence of the transitions of CmAtoms.v; hence the invariant holds in
    every reachable state. *)

From Coq Require Import List Arith Bool ZArith Lia.
From Verif Require Import Base CmModel CmSpec CmLemmas CmAtoms.
Import ListNotations.
Set Implicit Arguments.
Open Scope nat_scope.

Lemma aborted_of : forall i n n1 a1,
  delta i n n1 a1 (n_timers n) (n_next n) [] ->
  a_use (n_ars n i) = true -> a_use a1 = true ->
  a_arep a1 = a_arep (n_ars n i) -> a_su a1 = a_su (n_ars n i) ->
  a_crs a1 = a_crs (n_ars n i) -> a_sm a1 = a_sm (n_ars n i) ->
  a_hsm a1 = a_hsm (n_ars n i) ->
  aborted i n (state_ind i EvAbort n1).
Proof.
  intros i n n1 a1 [A B C D E F G] U U1 E1 E2 E3 E4 E5.
  rewrite <- B in *. cbn in G.
  destruct (abort_spec i n1 U1) as (P1 & P2 & P3 & P4 & P5 & P6).
  assert (X : forall k, upd (n_ars n1) i ar0 k = upd (n_ars n) i ar0 k).
  { intros k. unfold upd. destruct (Nat.eqb_spec k i); auto. }
  unfold aborted. rewrite E1, C in *.
  assert (CS : forall o, clear_subs n1 i o = clear_subs n i o).
  { intros o. unfold clear_subs. rewrite D. apply clear_all_ext. exact X. }
  rewrite CS in *. split; [intros k; rewrite P1; apply X|].
  split; [exact P2|]. split; [exact P3|].
  split; [rewrite P4, E4, E5, E; reflexivity|].
  split; [congruence|]. rewrite P6, G. unfold tr_su. rewrite E2, E3. reflexivity.
Qed.

Lemma aborted_self : forall i n, a_use (n_ars n i) = true ->
  aborted i n (state_ind i EvAbort n).
Proof.
  intros i n U. apply (@aborted_of i n n (n_ars n i)); auto. dlt.
Qed.

Lemma set_abort : forall m own i n, a_use (n_ars n i) = true ->
  path m own n (set_dev i DevAbort n).
Proof.
  intros m own i n U. apply path_one, A_abort with (i := i); auto.
  unfold set_dev.
  apply (@aborted_of i n (setar i (with_dev DevAbort (n_ars n i)) n)
           (with_dev DevAbort (n_ars n i))); auto. dlt.
Qed.

Lemma find_index_some : forall f c from i,
  find_index f c from = Some i ->
  f i = true /\ from <= i < from + c /\ (forall j, from <= j < i -> f j = false).
Proof.
  intros f; induction c as [|c IH]; cbn; intros from i H; [discriminate|].
  destruct (f from) eqn:E.
  - injection H as <-. split; auto. split; [lia|]. intros; lia.
  - destruct (IH _ _ H) as (A & B & C). split; auto. split; [lia|].
    intros j Hj. destruct (Nat.eq_dec j from); [subst; auto|]. apply C; lia.
Qed.

Lemma find_index_none : forall f c from,
  find_index f c from = None -> forall j, from <= j < from + c -> f j = false.
Proof.
  intros f; induction c as [|c IH]; cbn; intros from H j Hj; [lia|].
  destruct (f from) eqn:E; [discriminate|].
  destruct (Nat.eq_dec j from); [subst; auto|]. apply (IH (S from)); auto; lia.
Qed.

(** Releasing an AR that was only just allocated. *)
Lemma release_new : forall m n n2 i,
  inv m n -> a_use (n_ars n i) = false ->
  (forall k, k <> i -> n_ars n2 k = n_ars n k) ->
  a_use (n_ars n2 i) = true ->
  a_arep (n_ars n2 i) = (if i <? m then S i else 0) ->
  n_order n2 = (if i <? m then n_order n ++ [i] else n_order n) ->
  let n3 := ar_release i n2 in
  same_ars n n3 /\ n_order n3 = n_order n /\ n_subs n3 = n_subs n2 /\
  n_timers n3 = n_timers n2 /\ n_next n3 = n_next n2 /\ n_tr n3 = n_tr n2.
Proof.
  intros m n n2 i I U K U2 Ar O n3. unfold n3, ar_release. rewrite U2, Ar.
  pose proof (inv_nouse i I U) as Z.
  assert (NI : ~ In i (n_order n)) by (rewrite (v_order_use I); congruence).
  destruct (i <? m).
  - cbn. refine (conj _ (conj _ _)); auto.
    + intros k. cbn. unfold upd. destruct (Nat.eqb_spec k i); [subst; auto|auto].
    + rewrite O. now apply remove_first_app.
  - cbn. refine (conj _ (conj _ _)); auto.
    intros k. cbn. unfold upd. destruct (Nat.eqb_spec k i); [subst; auto|auto].
Qed.

Lemma quiet_path : forall m own n n' os,
  same_ars n n' -> n_order n' = n_order n -> subs_step own n (n_subs n') ->
  n_timers n' = n_timers n -> n_next n' = n_next n ->
  n_tr n' = os ++ n_tr n -> Forall quiet os -> path m own n n'.
Proof. intros. apply path_one. eapply A_quiet; eauto. Qed.

Lemma clear_start_new : forall l,
  clear_start (map (fun k => mkIocr k false) l) = map (fun k => mkIocr k false) l.
Proof.
  intros l. unfold clear_start. rewrite map_map. apply map_ext.
  intros k. cbn. destruct (is_consumer k); reflexivity.
Qed.

Lemma event_delta : forall i e n, e <> EvAbort ->
  delta i n (state_ind i e n) (p_all e (n_next n) (n_ars n i))
            (tm_all e i (n_next n) (n_ars n i) (n_timers n))
            (nx_all e (n_next n) (n_ars n i))
            (tr_su i e (n_ars n i) ++ [OEvent (a_arep (n_ars n i)) e]).
Proof.
  intros i e n Ne. rewrite state_ind_eq. pose proof (ind0_delta i e n).
  destruct e; auto. congruence.
Qed.

Lemma p_all_startup : forall i id a tm,
  a_su a = SuStartup -> a_io a = IoIdle -> a_wrr a = WrIdle -> a_sm a = SmIdle ->
  a_pbe a = PbIdle ->
  p_all EvStartup id a =
    with_sm SmRun (Some id)
      (with_wrr WrStartup (with_io IoStartup false (with_crs (clear_start (a_crs a)) a))) /\
  tm_all EvStartup i id a tm =
    mkTm id TSm i (u32 (a_factor a * 100 * 1000)) :: del_timer (a_hsm a) tm /\
  nx_all EvStartup id a = S id.
Proof.
  intros i id a tm H1 H2 H3 H4 H5.
  assert (E1 : p_su EvStartup a = a) by (unfold p_su; rewrite H1; reflexivity).
  assert (E2 : p_io EvStartup id a =
               with_io IoStartup false (with_crs (clear_start (a_crs a)) a))
    by (unfold p_io; rewrite H2; reflexivity).
  set (b := with_io IoStartup false (with_crs (clear_start (a_crs a)) a)) in *.
  assert (E3 : p_wrr EvStartup b = with_wrr WrStartup b).
  { unfold p_wrr. change (a_wrr b) with (a_wrr a). rewrite H3. reflexivity. }
  assert (E4 : forall k, p_sm EvStartup k (with_wrr WrStartup b) =
                         with_sm SmRun (Some k) (with_wrr WrStartup b)).
  { intros k. unfold p_sm. change (a_sm (with_wrr WrStartup b)) with (a_sm a).
    rewrite H4. reflexivity. }
  assert (E5 : nx_io EvStartup id a = id) by (unfold nx_io; rewrite H2; reflexivity).
  assert (E6 : tm_io EvStartup i id a tm = tm) by (unfold tm_io; rewrite H2; reflexivity).
  unfold p_all, tm_all, nx_all. rewrite E1, E2, E3, E4, E5, E6.
  refine (conj _ (conj _ _)).
  - unfold p_pbe. change (a_pbe (with_sm SmRun (Some id) (with_wrr WrStartup b))) with (a_pbe a).
    rewrite H5. reflexivity.
  - unfold tm_sm. change (a_sm (with_wrr WrStartup b)) with (a_sm a). rewrite H4. reflexivity.
  - unfold nx_sm. change (a_sm (with_wrr WrStartup b)) with (a_sm a). rewrite H4. reflexivity.
Qed.

(** The effect of an accepted connect request. *)
Definition started (m i : nat) (q : connreq) (n n' : net) : Prop :=
  (forall k, n_ars n' k = upd (n_ars n) i (started_ar m i q (n_next n)) k) /\
  n_order n' = n_order n ++ [i] /\
  n_subs n' = claim i (q_claims q) (n_subs n) /\
  n_timers n' = mkTm (n_next n) TSm i (u32 (q_factor q * 100 * 1000)) :: n_timers n /\
  n_next n' = S (n_next n) /\
  n_tr n' = OConnected i :: OEvent (S i) EvStartup :: OAlarmOpen i
            :: cr_obs (su_open i) 0 (map (fun k => mkIocr k false) (q_kinds q)) ++ n_tr n.

Lemma dev_connect_started : forall m i q n n1,
  i < m -> q_check q = true -> q_start q = true -> q_err q = false ->
  n_ars n1 i = new_ar m i q -> (forall k, k <> i -> n_ars n1 k = n_ars n k) ->
  n_subs n1 = n_subs n -> n_order n1 = n_order n ++ [i] -> n_timers n1 = n_timers n ->
  n_next n1 = n_next n -> n_tr n1 = n_tr n ->
  started m i q n (dev_connect i q n1).
Proof.
  intros m i q n n1 Lt QC QS QE K2 K1 K4 K3 K5 K6 K7.
  assert (Ltb : (i <? m) = true) by now apply Nat.ltb_lt.
  unfold dev_connect. rewrite QC, QS, QE.
  set (n2 := setsubs (claim i (q_claims q) (n_subs n1)) n1).
  assert (L2 : n_ars n2 i = new_ar m i q) by exact K2.
  assert (L2k : forall k, k <> i -> n_ars n2 k = n_ars n k) by exact K1.
  assert (L2s : n_subs n2 = claim i (q_claims q) (n_subs n)) by (rewrite <- K4; reflexivity).
  assert (L2o : n_order n2 = n_order n ++ [i] /\ n_timers n2 = n_timers n /\
                n_next n2 = n_next n /\ n_tr n2 = n_tr n)
    by (rewrite <- K3, <- K5, <- K6, <- K7; repeat split; reflexivity).
  destruct L2o as (L2o & L2t & L2n & L2r).
  clearbody n2. clear K1 K2 K3 K4 K5 K6 K7 n1.
  set (n3 := set_dev i WCres n2).
  assert (D3 : delta i n2 n3 (with_dev WCres (new_ar m i q)) (n_timers n2) (n_next n2) []).
  { unfold n3, set_dev. rewrite L2. dlt. }
  clearbody n3.
  set (n4 := cmsu_start i q n3).
  assert (D4 : delta i n3 n4
            (with_sm SmIdle None (with_su SuStartup (with_dev WCres (new_ar m i q))))
            (n_timers n3) (n_next n3)
            (OAlarmOpen i :: cr_obs (su_open i) 0 (map (fun k => mkIocr k false) (q_kinds q)))).
  { unfold n4, cmsu_start. rewrite QS, (d_self D3). dlt. }
  clearbody n4.
  set (n5 := set_dev i WSucnf n4).
  assert (D5 : delta i n4 n5
            (with_dev WSucnf (with_sm SmIdle None (with_su SuStartup (with_dev WCres (new_ar m i q)))))
            (n_timers n4) (n_next n4) []).
  { unfold n5, set_dev. rewrite (d_self D4). dlt. }
  clearbody n5.
  assert (Ne : EvStartup <> EvAbort) by discriminate.
  pose proof (event_delta i n5 Ne) as D6.
  set (n6 := state_ind i EvStartup n5) in *. clearbody n6.
  set (n7 := set_dev i WPeind n6).
  assert (D7 : delta i n6 n7 (with_dev WPeind (n_ars n6 i)) (n_timers n6) (n_next n6) []).
  { unfold n7, set_dev. dlt. }
  clearbody n7.
  assert (T5 : n_timers n5 = n_timers n /\ n_next n5 = n_next n).
  { rewrite (d_tm D5), (d_nx D5), (d_tm D4), (d_nx D4), (d_tm D3), (d_nx D3). auto. }
  destruct T5 as [T5 X5].
  rewrite (d_self D5) in D6. rewrite T5, X5 in D6.
  match type of D6 with context [p_all _ _ ?a] =>
    destruct (@p_all_startup i (n_next n) a (n_timers n) eq_refl eq_refl eq_refl eq_refl eq_refl)
      as (Y1 & Y2 & Y3) end.
  rewrite Y1, Y2, Y3 in D6. clear Y1 Y2 Y3.
  refine (conj _ (conj _ (conj _ (conj _ (conj _ _))))).
  - intros k. cbn [emit n_ars]. unfold upd. destruct (Nat.eqb_spec k i) as [->|Nk].
    + rewrite (d_self D7), (d_self D6). unfold new_ar. rewrite Ltb.
        cbn [a_crs with_dev with_sm with_su]. rewrite clear_start_new. reflexivity.
    + rewrite (d_other D7), (d_other D6), (d_other D5), (d_other D4), (d_other D3); auto.
  - cbn [emit n_order]. rewrite (d_order D7), (d_order D6), (d_order D5), (d_order D4), (d_order D3); auto.
  - cbn [emit n_subs]. rewrite (d_subs D7), (d_subs D6), (d_subs D5), (d_subs D4), (d_subs D3); auto.
  - cbn [emit n_timers]. rewrite (d_tm D7), (d_tm D6). reflexivity.
  - cbn [emit n_next]. rewrite (d_nx D7), (d_nx D6). reflexivity.
  - cbn [emit n_tr]. rewrite (d_tr D7), (d_tr D6), (d_tr D5), (d_tr D4), (d_tr D3), L2r.
     unfold new_ar. rewrite Ltb. reflexivity.
Qed.

Lemma connect_path : forall m own q n,
  inv m n -> (q_check q = true -> q_err q = false) -> e_ok own q ->
  path m own n (connect m q n).
Proof.
  intros m own q n I Con Oq. unfold connect.
  destruct (find_index (fun j => negb (a_use (n_ars n j))) (S m) 0) as [i|] eqn:FI.
  2:{ eapply quiet_path with (os := [ORefused None]); try reflexivity.
      - intros k; reflexivity.
      - exact (SS_same own n).
      - constructor; [exact Logic.I|constructor]. }
  apply find_index_some in FI. destruct FI as (U & Rg & _).
  apply negb_true_iff in U. pose proof (inv_nouse i I U) as Z.
  set (n1 := setar i (new_ar m i q) (if i <? m then setorder (n_order n ++ [i]) n else n)).
  assert (K1 : forall k, k <> i -> n_ars n1 k = n_ars n k).
  { intros k Hk. unfold n1. cbn -[Nat.ltb]. rewrite upd_other by auto. destruct (i <? m); reflexivity. }
  assert (K2 : n_ars n1 i = new_ar m i q) by (unfold n1; cbn -[Nat.ltb]; apply upd_same).
  assert (K3 : n_order n1 = (if i <? m then n_order n ++ [i] else n_order n))
    by (unfold n1; cbn -[Nat.ltb]; destruct (i <? m); reflexivity).
  assert (K4 : n_subs n1 = n_subs n /\ n_timers n1 = n_timers n /\ n_next n1 = n_next n /\
               n_tr n1 = n_tr n) by (unfold n1; cbn -[Nat.ltb]; destruct (i <? m); auto).
  destruct K4 as (K4 & K5 & K6 & K7).
  clearbody n1.
  assert (U1 : a_use (n_ars n1 i) = true) by (rewrite K2; reflexivity).
  assert (A1 : a_arep (n_ars n1 i) = (if i <? m then S i else 0)) by (rewrite K2; reflexivity).
  destruct (@release_new m n _ i I U K1 U1 A1 K3) as (R1 & R2 & R3 & R4 & R5 & R6).
  assert (QP : path m own n (emit (ORefused (Some i)) (ar_release i n1))).
  { eapply quiet_path with (os := [ORefused (Some i)]); cbn [emit n_order n_subs n_timers n_next n_tr];
      try congruence.
    - intros k. apply R1.
    - rewrite R3, K4. apply SS_same.
    - cbn. congruence.
    - constructor; [exact Logic.I|constructor]. }
  destruct (q_parse q); cbn [negb]; auto.
  destruct (find_uuid m (q_uuid q) n1) as [j|] eqn:FU.
  - unfold find_uuid in FU. apply find_index_some in FU. destruct FU as (Fj & _ & _).
    apply andb_true_iff in Fj. destruct Fj as [Fj _]. apply andb_true_iff in Fj.
    destruct Fj as [Fj1 Fj2].
    assert (j <> i) by (intros ->; rewrite K2 in Fj2; discriminate).
    eapply path_app; [exact QP|]. apply set_abort. cbn. rewrite R1. rewrite <- K1; auto.
  - destruct (Nat.eqb_spec (a_arep (n_ars n1 i)) 0) as [E0|E0]; auto.
    assert (Du : forall j, a_use (n_ars n j) = true -> a_uuid (n_ars n j) <> q_uuid q).
    { intros j Uj. assert (Nj : j <> i) by congruence.
      destruct (inv_use j I Uj) as (Lj & _ & Sj).
      pose proof (@find_index_none _ _ _ FU j) as Q. cbn in Q.
      rewrite (K1 j Nj), Uj in Q. cbn in Q.
      assert (Dj : match a_dev (n_ars n j) with PowerOn => true | _ => false end = false).
      { destruct Sj as [(D & _)|(_ & _ & D & _)]; [rewrite D; auto|].
        destruct D as [D|[D|[D|[D|D]]]]; rewrite D; auto. }
      rewrite Dj in Q. cbn in Q. apply Z.eqb_neq, Q. lia. }
    assert (Lt : i < m).
    { rewrite A1 in E0. destruct (Nat.ltb_spec i m); congruence. }
    assert (Ltb : (i <? m) = true) by now apply Nat.ltb_lt.
    rewrite Ltb in A1, K3.
    clear QP R1 R2 R3 R4 R5 R6 E0 FU.
    assert (Case : (q_check q = true /\ q_start q = true) \/
                   (q_check q = true /\ q_start q = false) \/ q_check q = false)
      by (destruct (q_check q), (q_start q); auto).
    destruct Case as [[QC QS]|Case].
    { destruct (@dev_connect_started m i q n n1 Lt QC QS (Con QC) K2 K1 K4 K3 K5 K6 K7)
        as (S1 & S2 & S3 & S4 & S5 & S6).
      apply path_one. apply A_start with (i := i) (q := q); auto. }
    unfold dev_connect.
    set (n2 := setsubs (claim i (q_claims q) (n_subs n1)) n1).
    assert (L2 : n_ars n2 i = new_ar m i q) by exact K2.
    assert (L2k : forall k, k <> i -> n_ars n2 k = n_ars n k) by exact K1.
    assert (L2s : n_subs n2 = claim i (q_claims q) (n_subs n)) by (rewrite <- K4; reflexivity).
    assert (L2o : n_order n2 = n_order n ++ [i] /\ n_timers n2 = n_timers n /\
                  n_next n2 = n_next n /\ n_tr n2 = n_tr n)
      by (rewrite <- K3, <- K5, <- K6, <- K7; repeat split; reflexivity).
    destruct L2o as (L2o & L2t & L2n & L2r).
    clearbody n2. clear K1 K2 K3 K4 K5 K6 K7 U1 A1 n1.
    destruct (q_check q) eqn:QC.
    + (* accepted *)
      set (n3 := set_dev i WCres n2).
      assert (D3 : delta i n2 n3 (with_dev WCres (new_ar m i q)) (n_timers n2) (n_next n2) []).
      { unfold n3, set_dev. rewrite L2. dlt. }
        clearbody n3.
      destruct (q_start q) eqn:QS.
      * (* started *)
        exfalso. destruct Case as [[_ Q]|Q]; congruence.
      * (* start failed *)
        set (n4 := cmsu_start i q n3).
        assert (D4 : delta i n3 n4 (with_su SuStartup (with_dev WCres (new_ar m i q)))
                  (n_timers n3) (n_next n3)
                  (cr_obs (su_open i) 0 (firstn (q_opened q) (map (fun k => mkIocr k false) (q_kinds q))))).
        { unfold n4, cmsu_start. rewrite QS, (d_self D3). dlt. }
        clearbody n4.
        set (n5 := set_dev i WSucnf n4).
        assert (D5 : delta i n4 n5
                  (with_dev WSucnf (with_su SuStartup (with_dev WCres (new_ar m i q))))
                  (n_timers n4) (n_next n4) []).
        { unfold n5, set_dev. rewrite (d_self D4). dlt. }
        clearbody n5.
        assert (P1 : forall k, k <> i -> n_ars n5 k = n_ars n k).
        { intros k Hk. rewrite (d_other D5), (d_other D4), (d_other D3); auto. }
        assert (P2 : a_use (n_ars n5 i) = true) by (rewrite (d_self D5); reflexivity).
        assert (P3 : a_arep (n_ars n5 i) = if i <? m then S i else 0)
          by (rewrite (d_self D5); reflexivity).
        assert (P4 : n_order n5 = if i <? m then n_order n ++ [i] else n_order n).
        { rewrite Ltb, (d_order D5), (d_order D4), (d_order D3). auto. }
        destruct (@release_new m n _ i I U P1 P2 P3 P4) as (R1 & R2 & R3 & R4 & R5 & R6).
        apply path_one. apply A_failed with (i := i) (q := q) (k := q_opened q); auto.
        -- cbn [emit n_subs]. rewrite R3, (d_subs D5), (d_subs D4), (d_subs D3). auto.
        -- cbn [emit n_timers]. rewrite R4, (d_tm D5), (d_tm D4), (d_tm D3). auto.
        -- cbn [emit n_next]. rewrite R5, (d_nx D5), (d_nx D4), (d_nx D3). auto.
        -- cbn [emit n_tr]. rewrite R6, (d_tr D5), (d_tr D4), (d_tr D3), L2r. reflexivity.
    + (* not accepted *)
      set (n3 := set_dev i WCind n2).
      assert (D3 : delta i n2 n3 (with_dev WCind (new_ar m i q)) (n_timers n2) (n_next n2) []).
      { unfold n3, set_dev. rewrite L2. dlt. }
        clearbody n3.
      destruct (q_err q) eqn:QE.
      * assert (P1 : forall k, k <> i -> n_ars n3 k = n_ars n k).
        { intros k Hk. rewrite (d_other D3); auto. }
        assert (P2 : a_use (n_ars n3 i) = true) by (rewrite (d_self D3); reflexivity).
        assert (P3 : a_arep (n_ars n3 i) = if i <? m then S i else 0)
          by (rewrite (d_self D3); reflexivity).
        assert (P4 : n_order n3 = if i <? m then n_order n ++ [i] else n_order n).
        { rewrite Ltb, (d_order D3). auto. }
        destruct (@release_new m n _ i I U P1 P2 P3 P4) as (R1 & R2 & R3 & R4 & R5 & R6).
        eapply quiet_path with (os := [ORefused (Some i)]); cbn [emit n_order n_subs n_timers n_next n_tr].
        -- exact R1.
        -- exact R2.
        -- rewrite R3, (d_subs D3), L2s. apply SS_claim; auto.
        -- rewrite R4, (d_tm D3); auto.
        -- rewrite R5, (d_nx D3); auto.
        -- rewrite R6, (d_tr D3), L2r. reflexivity.
        -- constructor; [exact Logic.I|constructor].
      * apply path_one. apply A_wcind with (i := i) (q := q); auto.
        -- intros k. cbn [emit n_ars]. unfold upd. destruct (Nat.eqb_spec k i) as [->|Nk].
           ++ rewrite (d_self D3). unfold new_ar. rewrite Ltb. reflexivity.
           ++ rewrite (d_other D3); auto.
        -- cbn [emit n_order]. rewrite (d_order D3); auto.
        -- cbn [emit n_subs]. rewrite (d_subs D3); auto.
        -- cbn [emit n_timers]. rewrite (d_tm D3); auto.
        -- cbn [emit n_next]. rewrite (d_nx D3); auto.
        -- cbn [emit n_tr]. rewrite (d_tr D3), L2r. reflexivity.
Qed.

Lemma restart_path : forall m own i n, inv m n -> a_use (n_ars n i) = true ->
  path m own n (read_ind i n).
Proof.
  intros m own i n I U. unfold read_ind. destruct (a_sm (n_ars n i)) eqn:S; [constructor|].
  apply path_one, A_restart with (i := i); auto. unfold sm_restart, sm_timer. rewrite S. dlt.
Qed.

Lemma data_path : forall m own i n,
  a_use (n_ars n i) = true ->
  (a_dev (n_ars n i) = WArdycnf \/ a_dev (n_ars n i) = WData) ->
  a_ready (n_ars n i) = true ->
  atom m own n (set_dev i DevData (state_ind i EvData n)).
Proof.
  intros m own i n U D R. apply A_data with (i := i); auto.
  assert (Ne : EvData <> EvAbort) by discriminate.
  pose proof (event_delta i n Ne) as E. unfold set_dev.
  set (n1 := state_ind i EvData n) in *. clearbody n1. destruct E as [A B C D' E F G].
  constructor; cbn; auto.
  - intros k Hk. rewrite upd_other by auto. auto.
  - rewrite upd_same, B. reflexivity.
Qed.

Lemma ioadd_path : forall m own i n,
  a_use (n_ars n i) = true -> a_io (n_ars n i) <> IoIdle ->
  path m own n (io_add i n).
Proof.
  intros m own i n U Io. apply path_one, A_ioadd with (i := i); auto. unfold io_add. dlt.
Qed.

Lemma ioexp_path : forall m own i n id, inv m n -> e_in own (IExpire id) ->
  path m own n (cmio_expired i n).
Proof.
  intros m own i n id I Ein. unfold cmio_expired.
  set (a := n_ars n i).
  assert (Off : ~ (a_io a = IoWdata /\ a_resched a = true) ->
                path m own n (setar i (with_hio None (with_io (a_io a) false a)) n)).
  { intros N. apply path_one, A_iooff with (i := i); auto. unfold a. dlt. }
  destruct (a_io a) eqn:Io; try (apply Off; intros [Q _]; discriminate).
  destruct (a_resched a) eqn:Rs; [|apply Off; intros [_ Q]; discriminate].
  clear Off.
  assert (U : a_use a = true).
  { destruct (a_use a) eqn:U; auto. unfold a in *. rewrite (inv_nouse i I U) in Io. discriminate. }
  unfold cmio_info. set (b := data_possible a).
  set (n1 := emit (OInfo i b) n). change (n_ars n1 i) with a.
  assert (AI : forall n2,
     n2 = match a_dev a with
          | WArdy | WArdycnf | WData => setar i (with_ready b a) n1
          | _ => n1 end -> atom m own n n2).
  { intros n2 ->. apply A_info with (i := i); eauto.
    fold a. fold b. destruct (a_dev a); unfold n1; dlt. }
  destruct (a_dev a) eqn:Dv;
    try (eapply path_app; [apply path_one, AI; reflexivity|];
         apply ioadd_path; cbn; rewrite ?upd_same; cbn; try fold a; congruence).
  set (n2 := setar i (with_ready b a) n1) in *.
  assert (P2 : n_ars n2 i = with_ready b a) by (unfold n2; cbn; apply upd_same).
  eapply path_app; [apply path_one, AI; reflexivity|]. destruct b eqn:Eb.
  - eapply path_app.
    + apply path_one. apply data_path.
      * rewrite P2; auto.
      * rewrite P2; auto.
      * rewrite P2; auto.
    + assert (Ne : EvData <> EvAbort) by discriminate.
      pose proof (event_delta i n2 Ne) as E. rewrite P2 in E.
      set (n3 := state_ind i EvData n2) in *. clearbody n3.
      pose proof (d_self E) as E3.
      apply ioadd_path; unfold set_dev; cbn [setar n_ars]; rewrite upd_same, E3; cbn [a_use a_io with_dev].
      * destruct (p_all_keep EvData (n_next n2) (with_ready true a)) as (Q & _). rewrite Q. exact U.
      * intros Q. destruct (inv_use i I U) as (_ & _ & St). fold a in St.
        assert (Ac : active a).
        { destruct St as [Id|]; auto. assert (a_io a = IoIdle) by apply Id. congruence. }
        destruct Ac as (X1 & X2 & X3 & X4 & X5 & X6 & X7 & X8 & X9 & _).
        assert (Nd : a_dev a <> DevData) by congruence.
        destruct (X9 Nd) as [Sm Pb].
        revert Q. unfold p_all, p_su; cbn. rewrite X1. unfold p_io; cbn. rewrite Io.
        unfold p_wrr; cbn. destruct (a_wrr a); unfold p_sm; cbn; rewrite Sm; unfold p_pbe; cbn;
          rewrite Pb; discriminate.
  - apply ioadd_path; rewrite P2; cbn; auto. congruence.
Qed.

Lemma expired_aborts : forall m t n, inv m n -> In t (n_timers n) -> t_kind t = TSm ->
  aborted (t_ar t) n
    (cmsm_expired (t_ar t) (settimers (del_timer (Some (t_id t)) (n_timers n)) n)).
Proof.
  intros m t n I Ht K.
  set (n1 := settimers (del_timer (Some (t_id t)) (n_timers n)) n).
  destruct (v_sm I t Ht K) as (U & Sm & Hs & _).
  set (i := t_ar t) in *. set (a := n_ars n i) in *.
  unfold cmsm_expired. change (n_ars n1 i) with a. rewrite Sm.
  set (n2 := setar i (with_sm SmRun None a) n1).
  assert (P2 : n_ars n2 i = with_sm SmRun None a) by (unfold n2; cbn; apply upd_same).
  assert (U2 : a_use (n_ars n2 i) = true) by (rewrite P2; exact U).
  destruct (abort_spec i n2 U2) as (B1 & B2 & B3 & B4 & B5 & B6).
  rewrite P2 in *. cbn [a_arep a_sm a_hsm with_sm] in *.
  assert (X : forall k, upd (n_ars n2) i ar0 k = upd (n_ars n) i ar0 k).
  { intros k. unfold upd, n2; cbn. unfold upd. destruct (Nat.eqb_spec k i); auto. }
  assert (CS : forall o, clear_subs n2 i o = clear_subs n i o).
  { intros o. unfold clear_subs. apply clear_all_ext. exact X. }
  unfold aborted. fold a.
  set (n3 := state_ind i EvAbort n2) in *.
  rewrite CS in *.
  cbn [setar n_ars n_order n_subs n_timers n_next n_tr].
  split.
  { intros k. rewrite B1, upd_same. unfold upd.
    destruct (Nat.eqb_spec k i); auto. rewrite B1. unfold upd.
    destruct (Nat.eqb_spec k i); [congruence|]. unfold n2; cbn. rewrite upd_other; auto. }
  split; [exact B2|]. split; [exact B3|]. split; [rewrite B4, Sm, Hs; reflexivity|].
  split; [exact B5|]. rewrite B6. unfold tr_su. cbn. reflexivity.
Qed.

Lemma expire_path : forall m own id n, inv m n -> e_in own (IExpire id) -> path m own n (expire id n).
Proof.
  intros m own id n I Ein. unfold expire.
  destruct (find (fun t => t_id t =? id) (n_timers n)) as [t|] eqn:F; [|constructor].
  apply find_some in F. destruct F as [Ht Ei]. apply Nat.eqb_eq in Ei. subst id.
  destruct (t_kind t) eqn:K.
  - apply path_one, A_abort with (i := t_ar t).
    + destruct (v_sm I t Ht K) as (U & _). exact U.
    + eapply expired_aborts; eauto.
  - eapply path_app.
    + apply path_one. apply A_ioexp with (t := t); auto.
    + apply ioexp_path with (id := t_id t); auto. eapply inv_atom; [exact I|].
      apply A_ioexp with (t := t) (own := own); auto.
Qed.

Lemma dcontrol_path : forall m own i c cb pdev sess n,
  inv m n -> a_use (n_ars n i) = true -> (e_own own = true -> sess = Some i) ->
  path m own n (dcontrol i c cb pdev sess n).
Proof.
  intros m own i c cb pdev sess n I U Ow. unfold dcontrol.
  destruct (inv_use i I U) as (Lt & Ar & St).
  set (a := n_ars n i) in *.
  assert (Ab : path m own n (state_ind i EvAbort n)).
  { apply path_one, A_abort with (i := i); auto. apply aborted_self; auto. }
  assert (Nop : forall (n' : net), path m own n n' ->
     path m own n match sess with
       | Some k => if false && a_use (n_ars n' k) then state_ind k EvPrmend n' else n'
       | None => n' end).
  { intros n' P. destruct sess; auto. }
  destruct (a_dev a) eqn:Dv; try (apply Nop; constructor).
  - (* WPeind *)
    destruct c; try (apply Nop; exact Ab).
    set (n1 := set_dev i WPeres n).
    destruct cb.
    + set (n2 := set_dev i WArdy n1).
      assert (D2 : delta i n n2 (with_dev WArdy a) (n_timers n) (n_next n) []).
      { unfold n2, n1, set_dev, a. dlt. }
      destruct pdev.
      * cbn [andb]. destruct (e_own own) eqn:EO.
        -- rewrite (Ow eq_refl). rewrite (d_self D2). cbn [a_use with_dev]. rewrite U.
           apply path_one, A_prmend with (i := i); auto. fold a.
           assert (Ne : EvPrmend <> EvAbort) by discriminate.
           pose proof (event_delta i n2 Ne) as E. rewrite (d_self D2), (d_tm D2), (d_nx D2) in E.
           pose proof (delta_trans D2 E) as X. cbn [app] in X. rewrite app_nil_r in X. exact X.
        -- assert (P2 : path m own n n2).
           { apply path_one, A_dev with (i := i) (d := WArdy); auto. }
           destruct sess as [k|]; auto.
           destruct (a_use (n_ars n2 k)) eqn:Uk; auto.
           eapply path_app; [exact P2|]. apply path_one.
           apply A_event with (i := k) (e := EvPrmend); auto.
           apply event_delta. discriminate.
      * apply Nop. apply path_one, A_abort with (i := i); auto.
        apply (@aborted_of i n n2 (with_dev WArdy a)); auto.
    + apply Nop. apply path_one, A_abort with (i := i); auto.
      apply (@aborted_of i n n1 (with_dev WPeres a)); auto.
      unfold n1, set_dev, a. dlt.
  - (* data *)
    assert (Ac : active a).
    { destruct St as [(Q & _)|]; auto. congruence. }
    destruct Ac as (X1 & X2 & X3 & X4 & X5 & X6 & X7 & X8 & _).
    destruct (X8 Dv) as [Sm Pb].
    unfold cmpbe_dcontrol. fold a.
    destruct Pb as [Pb|Pb]; rewrite Pb.
    + rewrite X2.
      assert (D : delta i n (setar i (with_pbe PbWfrsp false a) n) (with_pbe PbWfrsp false a)
                        (n_timers n) (n_next n) []) by (unfold a; dlt).
      destruct c; try (apply Nop; exact Ab).
      destruct cb; apply Nop.
      * apply path_one, A_pbe with (i := i); auto.
      * apply path_one, A_abort with (i := i); auto.
        eapply aborted_of; eauto.
    + destruct c; apply Nop; exact Ab.
Qed.

Theorem step_path : forall m own x n,
  inv m n -> answers_consistently x -> (e_own own = true -> own_session x) ->
  e_in own x -> path m own n (step m x n).
Proof.
  intros m own x n I Con Ow Ein.
  destruct x as [q|i|i c cb pdev sess|i avail sent|i ok dn|id|i c s|i c b|i|i k ix|i|i|k mm id|k];
    cbn [step]; unfold guard;
    try match goal with |- context [a_use (n_ars n ?i)] =>
      destruct (a_use (n_ars n i)) eqn:U; [|constructor] end.
  - apply connect_path; auto.
  - unfold release. destruct (a_dev (n_ars n i)); try (apply P_nil); apply set_abort; auto.
  - apply dcontrol_path; auto.
  - unfold app_ready. destruct (a_dev (n_ars n i)) eqn:Dv; try constructor.
    destruct avail; [|constructor].
    assert (Ne : EvApplrdy <> EvAbort) by discriminate.
    pose proof (event_delta i n Ne) as E.
    eapply path_app.
    + apply path_one. apply A_event with (i := i) (e := EvApplrdy); auto. exact E.
    + destruct sent; [|constructor].
      destruct (p_all_keep EvApplrdy (n_next n) (n_ars n i)) as (Q1 & Q2 & Q3 & Q4 & _).
      apply path_one, A_dev with (i := i) (d := WArdycnf).
      * rewrite (d_self E), Q1. auto.
      * right; left. rewrite (d_self E), Q4. split; auto. split; auto.
        assert (Ne' : EvApplrdy <> EvStartup) by discriminate.
        destruct (p_all_fields (n_next n) (n_ars n i) Ne Ne') as (_ & _ & F3 & _).
        rewrite F3. unfold p_wrr. destruct (a_wrr (n_ars n i)) eqn:W; cbn; congruence.
      * unfold set_dev. dlt.
  - unfold ccontrol_cnf. destruct (a_dev (n_ars n i)) eqn:Dv; try constructor.
    destruct ok.
    + destruct dn; [|constructor]. destruct (a_ready (n_ars n i)) eqn:Rd.
      * apply path_one, data_path; auto.
      * apply path_one, A_dev with (i := i) (d := WData); auto. unfold set_dev. dlt.
    + apply set_abort; auto.
  - apply expire_path; auto.
  - unfold cpm_state. set (n1 := emit (OInd i c s) n).
    change (n_ars n1 i) with (n_ars n i).
    assert (P : forall n2, delta i n n2
            (match a_io (n_ars n i) with
             | IoWdata => with_crs (set_start c s (a_crs (n_ars n i))) (n_ars n i)
             | _ => n_ars n i
             end) (n_timers n) (n_next n) [OInd i c s] -> path m own n n2).
    { intros n2 D. apply path_one, A_ind with (i := i) (c := c) (b := s); auto. }
    assert (P1 : a_io (n_ars n i) <> IoWdata -> path m own n n1).
    { intros Q. apply P. unfold n1. destruct (a_io (n_ars n i)); dlt; congruence. }
    assert (Ab : path m own n1 (state_ind i EvAbort n1)).
    { apply path_one, A_abort with (i := i); auto. apply aborted_self; auto. }
    destruct (a_io (n_ars n i)) eqn:Io.
    + apply P1. discriminate.
    + destruct (a_legacy (n_ars n i) && negb s); [|apply P1; discriminate].
      eapply path_app; [apply P1; discriminate|exact Ab].
    + apply P. unfold n1. dlt.
    + destruct s; [apply P1; discriminate|].
      eapply path_app; [apply P1; discriminate|exact Ab].
  - unfold cpm_new_data. apply path_one, A_ind with (i := i) (c := c) (b := b); auto.
    cbn [emit n_ars]. destruct (a_io (n_ars n i)); dlt.
  - apply restart_path; auto.
  - unfold write_ind.
    match goal with |- context [if ?g then emit _ n else n] => destruct g end.
    + assert (P : atom m own n (emit (OWrite i k ix) n)).
      { apply A_write with (i := i) (k := k) (ix := ix); auto. }
      eapply path_app; [apply path_one, P|].
      apply restart_path; auto. eapply inv_atom; eauto.
    + apply restart_path; auto.
  - apply set_abort; auto.
  - apply path_one, A_abort with (i := i); auto. apply aborted_self; auto.
  - pose proof (@SS_plug own n k mm id) as SP.
    unfold plug in *. destruct (find_sub k (n_subs n)); [constructor|].
    destruct (first_expecting (n_ars n) (n_order n) k) as [[j e]|].
    + eapply quiet_path with (os := [_]); try reflexivity; auto; try (intros j'; reflexivity).
    + eapply quiet_path with (os := []); try reflexivity; auto; try (intros j'; reflexivity).
  - pose proof (@SS_pull own n k) as SP.
    unfold pull in *. destruct (find_sub k (n_subs n)) as [s|]; [|constructor].
    destruct (s_owner s) as [j|].
    + eapply quiet_path with (os := [_]); try reflexivity; auto; try (intros j'; reflexivity).
    + eapply quiet_path with (os := []); try reflexivity; auto; try (intros j'; reflexivity).
Qed.

Definition any_env : env := mkEnv false (fun _ => True).

Lemma inv_step : forall m x n, inv m n -> answers_consistently x -> inv m (step m x n).
Proof.
  intros m x n I C. eapply inv_path; [|exact I].
  apply step_path with (own := any_env); cbn; auto. discriminate.
Qed.

Theorem inv_run : forall m xs n, inv m n -> Forall answers_consistently xs ->
  inv m (run m xs n).
Proof.
  intros m xs; induction xs as [|x r IH]; cbn; intros n I F; auto.
  inversion F; subst. apply IH; auto. apply inv_step; auto.
Qed.
