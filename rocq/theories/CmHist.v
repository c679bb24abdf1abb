(** Order of events, balance of opened resources and ownership of sub-slots in
    every reachable state of CmModel.v. *)

From Coq Require Import List Arith Bool ZArith Lia.
From Verif Require Import Base CmModel CmSpec CmLemmas CmAtoms CmSteps CmTrace.
Import ListNotations.
Set Implicit Arguments.
Open Scope nat_scope.

Lemma tinv_path : forall m own n n', path m own n n' -> inv m n ->
  (forall i, tinv i (n_ars n i) (n_tr n)) -> forall i, tinv i (n_ars n' i) (n_tr n').
Proof.
  induction 1 as [n|n n1 n2 A P IH]; intros I T; auto.
  apply IH; [eapply inv_atom; eauto|]. eapply tinv_atom; eauto.
Qed.

Lemma tinv_net0 : forall i, tinv i (n_ars net0 i) (n_tr net0).
Proof.
  intros i. unfold tinv; cbn.
  refine (conj _ (conj _ (conj _ (conj _ (conj _ _))))); auto; discriminate.
Qed.

Lemma tinv_run : forall m xs n, inv m n -> Forall answers_consistently xs ->
  (forall i, tinv i (n_ars n i) (n_tr n)) ->
  forall i, tinv i (n_ars (run m xs n) i) (n_tr (run m xs n)).
Proof.
  intros m xs; induction xs as [|x r IH]; cbn; intros n I F T; auto.
  inversion F; subst. apply IH; auto; [apply inv_step; auto|].
  eapply tinv_path; [|exact I|exact T].
  apply step_path with (own := any_env); cbn; auto. discriminate.
Qed.

(** ** The order of events *)
Definition phase_for (a : ar) : phase :=
  match a_dev a with
  | WPeind => Started
  | WArdy => match a_wrr a with WrData => Ready | _ => Parameterised end
  | WArdycnf | WData => Ready
  | DevData => Exchanging
  | _ => Closed
  end.
Definition pinv (i : nat) (a : ar) (tr : list obs) : Prop :=
  phase_of (S i) tr = Some (phase_for a) /\ a_dev a <> WCind /\
  (a_dev a = WPeind -> a_wrr a = WrStartup) /\
  (a_dev a = WArdy -> a_wrr a <> WrStartup) /\
  (a_dev a = WArdycnf \/ a_dev a = WData \/ a_dev a = DevData -> a_wrr a = WrData).

Lemma pinv_foreign : forall i a os tr, pinv i a tr -> Forall (foreign i) os ->
  pinv i a (os ++ tr).
Proof.
  intros i a os tr (A & B) H. split; auto. now rewrite (phase_foreign tr H).
Qed.
Lemma pinv_ext : forall i a b tr, pinv i a tr ->
  a_wrr b = a_wrr a -> a_dev b = a_dev a -> pinv i b tr.
Proof.
  intros i a b tr H E2 E3. unfold pinv, phase_for in *. rewrite E2, E3. exact H.
Qed.

Definition own_env : env :=
  mkEnv true refuses_with_error.

Ltac pd := repeat split; try discriminate; try (intros [?|[?|?]]; discriminate); auto.

Lemma pinv_atom : forall m n n', inv m n -> (forall i, pinv i (n_ars n i) (n_tr n)) ->
  atom m own_env n n' -> forall k, pinv k (n_ars n' k) (n_tr n').
Proof.
  intros m n n' I T At k.
  assert (Gen : forall i a' tm nx os, delta i n n' a' tm nx os -> Forall (foreign k) os ->
                k <> i -> pinv k (n_ars n' k) (n_tr n')).
  { intros i a' tm nx os [A B C D E F G] H N. rewrite A, G by auto.
    apply pinv_foreign; auto. }
  assert (Acu : forall i, a_use (n_ars n i) = true -> active (n_ars n i)).
  { intros i U. destruct (inv_use _ I U) as (_ & _ & [(Q & _)|Ac]); auto.
    destruct (T i) as (_ & Q' & _). congruence. }
  destruct At.
  - rewrite Q1, Q6. apply pinv_foreign; auto. now apply plain_foreign, quiet_plain.
  - subst. apply (@pinv_foreign k (n_ars n k) [_] (n_tr n)); auto; constructor; cbn; auto.
  - rewrite F1, F6. apply (@pinv_foreign k (n_ars n k) (_ :: _) (n_tr n)); auto.
    constructor; [exact Logic.I|]. apply plain_foreign, su_open_plain.
  - destruct Ha as (A & _ & _ & _ & _ & G). destruct (inv_use _ I Hu) as (_ & Ar & _).
    rewrite A, G, Ar. rewrite app_assoc. set (os := _ ++ tr_su _ _ _).
    assert (P : Forall plain os).
    { apply Forall_app. split; [apply clear_plain|apply tr_su_plain]. }
    clearbody os. apply pinv_foreign; [|now apply plain_foreign].
    unfold upd. destruct (Nat.eqb_spec k i) as [->|N].
    + destruct (T i) as (Ph & _). destruct (Acu _ Hu) as (_ & _ & X3 & _).
      unfold pinv; cbn. rewrite Nat.eqb_refl, Ph.
      split; [|pd].
      unfold phase_for. destruct X3 as [Y|[Y|[Y|[Y|Y]]]]; rewrite Y; try reflexivity.
      destruct (a_wrr (n_ars n i)); reflexivity.
    + apply (@pinv_foreign k (n_ars n k) [_] (n_tr n)); auto; constructor; cbn; auto.
  - rewrite S1, S6. unfold upd. destruct (Nat.eqb_spec k i) as [->|N].
    + pose proof (inv_nouse _ I S0) as Z. pose proof (T i) as Ti. rewrite Z in Ti.
      destruct Ti as (Ph & _). unfold pinv, started_ar; cbn. rewrite Nat.eqb_refl.
      assert (E : phase_of (S i) (cr_obs (su_open i) 0
                (map (fun k : crkind => mkIocr k false) (q_kinds q)) ++ n_tr n) = Some Closed).
      { rewrite phase_foreign; auto. apply plain_foreign, su_open_plain. }
      rewrite E. cbn. pd.
    + apply (@pinv_foreign k (n_ars n k) (_ :: _ :: _ :: _) (n_tr n)); auto.
      repeat (constructor; cbn; auto). apply plain_foreign, su_open_plain.
  - exfalso. destruct W7 as [W7 W7']. unfold e_ok in W8; cbn in W8. specialize (W8 W7). congruence.
  - destruct (Nat.eq_dec k i) as [->|N]; [|eapply Gen; eauto].
    destruct (T i) as (Ph & _ & P1 & P2 & P3). rewrite (d_self D2), (d_tr D2). cbn [app].
    unfold pinv, phase_for in *. cbn [a_dev with_dev a_wrr].
    destruct D1 as [(_ & _ & Q)|[(Dv & -> & W)|(Dv & ->)]]; [discriminate| |].
    + rewrite Dv in Ph. destruct (Acu _ D0) as (_ & _ & _ & _ & X5 & _).
      assert (W' : a_wrr (n_ars n i) = WrData).
      { specialize (P2 Dv). destruct X5 as [Y|[Y|Y]]; congruence. }
      rewrite W' in *. pd.
    + rewrite Dv in Ph. rewrite (P3 (or_introl Dv)). pd.
  - destruct E1 as [[_ Q]|[-> Dv]]; [discriminate|].
    destruct (inv_use _ I E0) as (_ & Ar & _).
    destruct (Nat.eq_dec k i) as [->|N].
    2:{ eapply Gen; eauto. apply Forall_app. split; [apply plain_foreign, tr_su_plain|].
        constructor; auto. cbn. congruence. }
    rewrite (d_self E2), (d_tr E2), <- app_assoc, Ar. cbn [app].
    apply pinv_foreign; [|apply plain_foreign, tr_su_plain].
    assert (N1 : EvApplrdy <> EvAbort) by discriminate.
    assert (N2 : EvApplrdy <> EvStartup) by discriminate.
    destruct (p_all_fields (n_next n) (n_ars n i) N1 N2) as (_ & _ & F3 & _ & _).
    destruct (p_all_keep EvApplrdy (n_next n) (n_ars n i)) as (_ & _ & _ & K4 & _).
    destruct (T i) as (Ph & _ & _ & P2 & _). specialize (P2 Dv).
    destruct (Acu _ E0) as (_ & _ & _ & _ & X5 & _).
    unfold pinv, phase_for in *. rewrite F3, K4, Dv in *. unfold p_wrr.
    cbn [phase_of]. rewrite Nat.eqb_refl, Ph.
    destruct X5 as [Y|[Y|Y]]; [congruence| |]; rewrite Y; cbn; rewrite ?Y;
      pd.
  - destruct (inv_use _ I M0) as (_ & Ar & _).
    destruct (Nat.eq_dec k i) as [->|N].
    2:{ eapply Gen; eauto. apply Forall_app. split; [apply plain_foreign, tr_su_plain|].
        constructor; auto. cbn. congruence. }
    rewrite (d_self M2), (d_tr M2), <- app_assoc, Ar. cbn [app].
    apply pinv_foreign; [|apply plain_foreign, tr_su_plain].
    assert (N1 : EvPrmend <> EvAbort) by discriminate.
    assert (N2 : EvPrmend <> EvStartup) by discriminate.
    destruct (p_all_fields (n_next n) (with_dev WArdy (n_ars n i)) N1 N2) as (_ & _ & F3 & _ & _).
    destruct (p_all_keep EvPrmend (n_next n) (with_dev WArdy (n_ars n i))) as (_ & _ & _ & K4 & _).
    destruct (T i) as (Ph & _ & P1 & _). specialize (P1 M1).
    assert (F3' : a_wrr (p_all EvPrmend (n_next n) (with_dev WArdy (n_ars n i))) = WrPrmend).
    { rewrite F3. unfold p_wrr. cbn [a_wrr with_dev]. rewrite P1. reflexivity. }
    cbn [a_dev with_dev] in K4.
    unfold pinv, phase_for in *. rewrite F3', K4, M1 in *.
    cbn [phase_of]. rewrite Nat.eqb_refl, Ph.
    pd.
  - destruct (inv_use _ I T0) as (_ & Ar & _).
    destruct (Nat.eq_dec k i) as [->|N].
    2:{ eapply Gen; eauto. apply Forall_app. split; [apply plain_foreign, tr_su_plain|].
        constructor; auto. cbn. congruence. }
    rewrite (d_self T3), (d_tr T3), <- app_assoc, Ar. cbn [app].
    apply pinv_foreign; [|apply plain_foreign, tr_su_plain].
    destruct (T i) as (Ph & _ & _ & _ & P3). unfold pinv, phase_for in *. cbn [a_dev with_dev].
    cbn [phase_of]. rewrite Nat.eqb_refl, Ph.
    assert (N1 : EvData <> EvAbort) by discriminate.
    assert (N2 : EvData <> EvStartup) by discriminate.
    destruct (p_all_fields (n_next n) (n_ars n i) N1 N2) as (_ & _ & F3 & _ & _).
    cbn [a_wrr with_dev]. rewrite F3. unfold p_wrr. rewrite P3 by tauto. cbn.
    rewrite P3 by tauto.
    destruct T1 as [Y|Y]; rewrite Y;
    pd.
  - destruct (Nat.eq_dec k i) as [->|N].
    2:{ eapply Gen; eauto. constructor; cbn; auto. }
    rewrite (d_self I2), (d_tr I2). cbn [app].
    destruct (T i) as (Ph & P). unfold pinv, phase_for in *. cbn [phase_of].
    destruct (a_dev (n_ars n i)) eqn:Dv; cbn; rewrite ?Dv; auto.
  - destruct (Nat.eq_dec k i) as [->|N].
    2:{ eapply Gen; eauto. constructor; cbn; auto. }
    rewrite (d_self N1), (d_tr N1). cbn [app].
    destruct (T i) as (Ph & P). unfold pinv, phase_for in *. cbn [phase_of].
    destruct (a_io (n_ars n i)); cbn; auto.
  - destruct (Nat.eq_dec k i) as [->|N]; [|eapply Gen; eauto].
    rewrite (d_self R2), (d_tr R2). eapply pinv_ext; [apply T|..]; reflexivity.
  - subst. apply T.
  - destruct (Nat.eq_dec k i) as [->|N]; [|eapply Gen; eauto].
    rewrite (d_self Y1), (d_tr Y1). eapply pinv_ext; [apply T|..]; reflexivity.
  - destruct (Nat.eq_dec k i) as [->|N]; [|eapply Gen; eauto].
    rewrite (d_self Z1), (d_tr Z1). eapply pinv_ext; [apply T|..]; reflexivity.
  - destruct (Nat.eq_dec k i) as [->|N]; [|eapply Gen; eauto].
    rewrite (d_self B3), (d_tr B3). eapply pinv_ext; [apply T|..]; reflexivity.
Qed.

(** The events since the last start, in each phase. *)
Lemma phase_since : forall a tr p, phase_of a tr = Some p ->
  match since a tr, p with
  | None, Closed => True
  | Some l, Started => l = []
  | Some l, Parameterised => l = [EvPrmend]
  | Some l, Ready => In EvApplrdy l /\ In EvPrmend l /\ ~ In EvData l
  | Some l, Exchanging => In EvApplrdy l /\ In EvPrmend l /\ In EvData l
  | _, _ => False
  end.
Proof.
  induction tr as [|o r IH]; cbn; intros p H.
  - injection H as <-. exact Logic.I.
  - destruct o as [a' e| | | | | | | | | | | | | | | ]; try exact (IH p H).
    destruct (a' =? a); [|exact (IH p H)]. destruct (phase_of a r) as [q|]; [|discriminate].
    specialize (IH q eq_refl).
    destruct q, e; cbn in H; try discriminate; injection H as <-; cbn; auto;
      destruct (since a r) as [l|]; cbn; try tauto; subst; cbn; intuition congruence.
Qed.

(** ** Resources *)
Definition bforeign (k : nat) (o : obs) : Prop :=
  match o with
  | OCpmOpen i _ | OCpmClose i _ | OPpmOpen i _ | OPpmClose i _
  | OAlarmOpen i | OAlarmClose i => i <> k
  | _ => True
  end.
Definition binv (i : nat) (a : ar) (tr : list obs) : Prop :=
  (forall c, cpm_open i c tr =
     match a_su a with
     | SuStartup => match nth_error (a_crs a) c with
                    | Some x => match io_kind x with CrOutput => true | _ => false end
                    | None => false
                    end
     | _ => false
     end) /\
  (forall c, ppm_open i c tr =
     match a_su a with
     | SuStartup => match nth_error (a_crs a) c with
                    | Some x => match io_kind x with CrInput => true | _ => false end
                    | None => false
                    end
     | _ => false
     end) /\
  alarm_open i tr = match a_su a with SuStartup => true | _ => false end.

Lemma cpm_foreign : forall k c os tr, Forall (bforeign k) os ->
  cpm_open k c (os ++ tr) = cpm_open k c tr.
Proof.
  induction 1 as [|o r Ho Hr IH]; cbn [app]; auto.
  destruct o; cbn in *; auto; destruct (Nat.eqb_spec i k); [congruence|auto|congruence|auto].
Qed.
Lemma ppm_foreign : forall k c os tr, Forall (bforeign k) os ->
  ppm_open k c (os ++ tr) = ppm_open k c tr.
Proof.
  induction 1 as [|o r Ho Hr IH]; cbn [app]; auto.
  destruct o; cbn in *; auto; destruct (Nat.eqb_spec i k); [congruence|auto|congruence|auto].
Qed.
Lemma alarm_foreign : forall k os tr, Forall (bforeign k) os ->
  alarm_open k (os ++ tr) = alarm_open k tr.
Proof.
  induction 1 as [|o r Ho Hr IH]; cbn [app]; auto.
  destruct o; cbn in *; auto; destruct (Nat.eqb_spec i k); [congruence|auto|congruence|auto].
Qed.
Lemma binv_foreign : forall k a os tr, binv k a tr -> Forall (bforeign k) os ->
  binv k a (os ++ tr).
Proof.
  intros k a os tr (A & B & C) H. unfold binv. rewrite (alarm_foreign tr H).
  refine (conj _ (conj _ C)); intros c.
  - rewrite (cpm_foreign c tr H). apply A.
  - rewrite (ppm_foreign c tr H). apply B.
Qed.
Lemma binv_ext : forall k a b tr, binv k a tr -> a_su b = a_su a ->
  map io_kind (a_crs b) = map io_kind (a_crs a) -> binv k b tr.
Proof.
  intros k a b tr (A & B & C) E1 E2. unfold binv. rewrite E1.
  assert (N : forall c, option_map io_kind (nth_error (a_crs b) c) =
                        option_map io_kind (nth_error (a_crs a) c)).
  { intros c. rewrite <- !nth_error_map, E2. reflexivity. }
  refine (conj _ (conj _ C)); intros c.
  - rewrite A. specialize (N c). destruct (a_su a); auto.
    destruct (nth_error (a_crs b) c), (nth_error (a_crs a) c); cbn in N; try congruence.
    injection N as ->. reflexivity.
  - rewrite B. specialize (N c). destruct (a_su a); auto.
    destruct (nth_error (a_crs b) c), (nth_error (a_crs a) c); cbn in N; try congruence.
    injection N as ->. reflexivity.
Qed.

Lemma kind_set_start : forall c b l, map io_kind (set_start c b l) = map io_kind l.
Proof.
  intros c b l. unfold set_start. destruct (nth_error l c) eqn:E; auto.
  revert c E. induction l as [|x r IH]; intros [|c] E; cbn in *; try discriminate; auto.
  - now injection E as ->.
  - f_equal. now apply IH.
Qed.

(** Opening and closing all CRs of a connection. *)
Lemma open_all_cpm : forall i l c0 c tr,
  cpm_open i c (cr_obs (su_open i) c0 l ++ tr) =
  if c <? c0 then cpm_open i c tr else
  match nth_error l (c - c0) with
  | Some x => match io_kind x with CrOutput => true | _ => cpm_open i c tr end
  | None => cpm_open i c tr
  end.
Proof.
  intros i l; induction l as [|x r IH]; intros c0 c tr; cbn [cr_obs].
  - cbn [app]. destruct (c <? c0); auto. destruct (c - c0); reflexivity.
  - rewrite <- app_assoc, IH.
    assert (H : cpm_open i c (su_open i c0 (io_kind x) ++ tr) =
                match io_kind x with CrOutput => if c =? c0 then true else cpm_open i c tr
                | _ => cpm_open i c tr end).
    { destruct (io_kind x); cbn; auto. rewrite Nat.eqb_refl. cbn.
      rewrite Nat.eqb_sym. destruct (c =? c0); auto. }
    rewrite H. destruct (Nat.ltb_spec c (S c0)), (Nat.ltb_spec c c0); try lia.
    + destruct (Nat.eqb_spec c c0); [lia|]. destruct (io_kind x); auto.
    + assert (c = c0) by lia. subst. rewrite Nat.eqb_refl, Nat.sub_diag. cbn. reflexivity.
    + destruct (Nat.eqb_spec c c0); [lia|]. replace (c - c0) with (S (c - S c0)) by lia. cbn.
      destruct (nth_error r (c - S c0)) as [y|]; destruct (io_kind x); try destruct (io_kind y); auto.
Qed.
Lemma open_all_ppm : forall i l c0 c tr,
  ppm_open i c (cr_obs (su_open i) c0 l ++ tr) =
  if c <? c0 then ppm_open i c tr else
  match nth_error l (c - c0) with
  | Some x => match io_kind x with CrInput => true | _ => ppm_open i c tr end
  | None => ppm_open i c tr
  end.
Proof.
  intros i l; induction l as [|x r IH]; intros c0 c tr; cbn [cr_obs].
  - cbn [app]. destruct (c <? c0); auto. destruct (c - c0); reflexivity.
  - rewrite <- app_assoc, IH.
    assert (H : ppm_open i c (su_open i c0 (io_kind x) ++ tr) =
                match io_kind x with CrInput => if c =? c0 then true else ppm_open i c tr
                | _ => ppm_open i c tr end).
    { destruct (io_kind x); cbn; auto. rewrite Nat.eqb_refl. cbn.
      rewrite Nat.eqb_sym. destruct (c =? c0); auto. }
    rewrite H. destruct (Nat.ltb_spec c (S c0)), (Nat.ltb_spec c c0); try lia.
    + destruct (Nat.eqb_spec c c0); [lia|]. destruct (io_kind x); auto.
    + assert (c = c0) by lia. subst. rewrite Nat.eqb_refl, Nat.sub_diag. cbn. reflexivity.
    + destruct (Nat.eqb_spec c c0); [lia|]. replace (c - c0) with (S (c - S c0)) by lia. cbn.
      destruct (nth_error r (c - S c0)) as [y|]; destruct (io_kind x); try destruct (io_kind y); auto.
Qed.
Lemma close_all_cpm : forall i l c0 c tr,
  cpm_open i c (cr_obs (su_close i) c0 l ++ tr) =
  if c <? c0 then cpm_open i c tr else
  match nth_error l (c - c0) with
  | Some x => match io_kind x with CrOutput => false | _ => cpm_open i c tr end
  | None => cpm_open i c tr
  end.
Proof.
  intros i l; induction l as [|x r IH]; intros c0 c tr; cbn [cr_obs].
  - cbn [app]. destruct (c <? c0); auto. destruct (c - c0); reflexivity.
  - rewrite <- app_assoc, IH.
    assert (H : cpm_open i c (su_close i c0 (io_kind x) ++ tr) =
                match io_kind x with CrOutput => if c =? c0 then false else cpm_open i c tr
                | _ => cpm_open i c tr end).
    { destruct (io_kind x); cbn; auto. rewrite Nat.eqb_refl. cbn.
      rewrite Nat.eqb_sym. destruct (c =? c0); auto. }
    rewrite H. destruct (Nat.ltb_spec c (S c0)), (Nat.ltb_spec c c0); try lia.
    + destruct (Nat.eqb_spec c c0); [lia|]. destruct (io_kind x); auto.
    + assert (c = c0) by lia. subst. rewrite Nat.eqb_refl, Nat.sub_diag. cbn. reflexivity.
    + destruct (Nat.eqb_spec c c0); [lia|]. replace (c - c0) with (S (c - S c0)) by lia. cbn.
      destruct (nth_error r (c - S c0)) as [y|]; destruct (io_kind x); try destruct (io_kind y); auto.
Qed.
Lemma close_all_ppm : forall i l c0 c tr,
  ppm_open i c (cr_obs (su_close i) c0 l ++ tr) =
  if c <? c0 then ppm_open i c tr else
  match nth_error l (c - c0) with
  | Some x => match io_kind x with CrInput => false | _ => ppm_open i c tr end
  | None => ppm_open i c tr
  end.
Proof.
  intros i l; induction l as [|x r IH]; intros c0 c tr; cbn [cr_obs].
  - cbn [app]. destruct (c <? c0); auto. destruct (c - c0); reflexivity.
  - rewrite <- app_assoc, IH.
    assert (H : ppm_open i c (su_close i c0 (io_kind x) ++ tr) =
                match io_kind x with CrInput => if c =? c0 then false else ppm_open i c tr
                | _ => ppm_open i c tr end).
    { destruct (io_kind x); cbn; auto. rewrite Nat.eqb_refl. cbn.
      rewrite Nat.eqb_sym. destruct (c =? c0); auto. }
    rewrite H. destruct (Nat.ltb_spec c (S c0)), (Nat.ltb_spec c c0); try lia.
    + destruct (Nat.eqb_spec c c0); [lia|]. destruct (io_kind x); auto.
    + assert (c = c0) by lia. subst. rewrite Nat.eqb_refl, Nat.sub_diag. cbn. reflexivity.
    + destruct (Nat.eqb_spec c c0); [lia|]. replace (c - c0) with (S (c - S c0)) by lia. cbn.
      destruct (nth_error r (c - S c0)) as [y|]; destruct (io_kind x); try destruct (io_kind y); auto.
Qed.
Lemma alarm_cr : forall f i l c tr,
  (forall c k o, In o (f c k) -> match o with OAlarmOpen _ | OAlarmClose _ => False | _ => True end) ->
  alarm_open i (cr_obs f c l ++ tr) = alarm_open i tr.
Proof.
  intros f i l; induction l as [|x r IH]; intros c tr H; cbn [cr_obs]; auto.
  rewrite <- app_assoc, IH by auto. specialize (H c (io_kind x)).
  induction (f c (io_kind x)) as [|o os IH']; cbn [app]; auto.
  assert (Ho := H o (or_introl eq_refl)).
  destruct o; cbn in *; try tauto; apply IH'; intros o' Ho'; apply H; now right.
Qed.

Lemma quiet_bforeign : forall k os, Forall quiet os -> Forall (bforeign k) os.
Proof. intros k os H. eapply Forall_impl; [|exact H]. intros [| | | | | | | | | | | | | | | ]; cbn; tauto. Qed.
Lemma open_bforeign : forall i k l c, k <> i -> Forall (bforeign k) (cr_obs (su_open i) c l).
Proof. intros. apply cr_obs_forall. intros c' []; repeat constructor; cbn; auto. Qed.
Lemma close_bforeign : forall i k l c, k <> i -> Forall (bforeign k) (cr_obs (su_close i) c l).
Proof. intros. apply cr_obs_forall. intros c' []; repeat constructor; cbn; auto. Qed.
Lemma run_bforeign : forall i k l c, Forall (bforeign k) (cr_obs (su_run i) c l).
Proof. intros. apply cr_obs_forall. intros c' []; repeat constructor. Qed.
Lemma clear_bforeign : forall k f order i l, Forall (bforeign k) (snd (clear_all f order i l)).
Proof.
  intros. apply Forall_forall. intros o H. apply clear_obs_released in H.
  destruct H as (j & k' & ->). exact Logic.I.
Qed.
Lemma tr_su_bforeign : forall i k e a, e <> EvAbort -> Forall (bforeign k) (tr_su i e a).
Proof.
  intros i k e a N. unfold tr_su. destruct (a_su a), e; auto; try congruence.
  apply run_bforeign.
Qed.

Lemma binv_atom : forall m own n n', (forall q, e_ok own q -> q_start q = true) ->
  inv m n -> (forall i, binv i (n_ars n i) (n_tr n)) ->
  atom m own n n' -> forall k, binv k (n_ars n' k) (n_tr n').
Proof.
  intros m own n n' Ok I T At k.
  assert (Gen : forall i a' tm nx os, delta i n n' a' tm nx os -> Forall (bforeign k) os ->
                (a_su a' = a_su (n_ars n i)) ->
                map io_kind (a_crs a') = map io_kind (a_crs (n_ars n i)) ->
                binv k (n_ars n' k) (n_tr n')).
  { intros i a' tm nx os [A B C D E F G] H H1 H2. rewrite G. apply binv_foreign; auto.
    destruct (Nat.eq_dec k i) as [->|N]; [|rewrite A; auto].
    rewrite B. eapply binv_ext; [apply T|auto..]. }
  destruct At.
  - rewrite Q1, Q6. apply binv_foreign; auto. now apply quiet_bforeign.
  - subst. apply (@binv_foreign k (n_ars n k) [_] (n_tr n)); auto; constructor; cbn; auto.
  - exfalso. specialize (Ok _ F8). congruence.
  - (* abort *)
    destruct Ha as (A & _ & _ & _ & _ & G).
    rewrite A, G. apply binv_foreign; [|apply clear_bforeign].
    destruct (inv_use _ I Hu) as (_ & Ar & St).
    unfold upd. destruct (Nat.eqb_spec k i) as [->|N].
    + destruct (T i) as (B1 & B2 & B3). set (a := n_ars n i) in *.
      destruct St as [Id|Ac].
      * destruct Id as (_ & Su & _). unfold tr_su. rewrite Su in *. cbn [app].
        unfold binv; cbn. auto.
      * destruct Ac as (Su & _). unfold tr_su. rewrite Su in *. unfold binv; cbn.
        rewrite Nat.eqb_refl. refine (conj _ (conj _ eq_refl)).
        -- intros c. rewrite close_all_cpm. cbn. rewrite Nat.sub_0_r, B1.
           destruct (nth_error (a_crs a) c) as [x|]; auto. destruct (io_kind x); auto.
        -- intros c. rewrite close_all_ppm. cbn. rewrite Nat.sub_0_r, B2.
           destruct (nth_error (a_crs a) c) as [x|]; auto. destruct (io_kind x); auto.
    + apply binv_foreign.
      * apply (@binv_foreign k (n_ars n k) [_] (n_tr n)); auto; constructor; cbn; auto.
      * unfold tr_su. destruct (a_su (n_ars n i)); auto.
        -- constructor; [cbn; auto|apply close_bforeign; auto].
        -- constructor; [cbn; auto|apply close_bforeign; auto].
  - (* start *)
    rewrite S1, S6. unfold upd. destruct (Nat.eqb_spec k i) as [->|N].
    + pose proof (inv_nouse _ I S0) as Z. pose proof (T i) as Ti. rewrite Z in Ti.
      destruct Ti as (B1 & B2 & B3). cbn in B1, B2, B3.
      unfold binv, started_ar; cbn. rewrite Nat.eqb_refl.
      refine (conj _ (conj _ eq_refl)).
      * intros c. rewrite open_all_cpm. cbn. rewrite Nat.sub_0_r, B1.
        destruct (nth_error _ c) as [x|]; auto.
      * intros c. rewrite open_all_ppm. cbn. rewrite Nat.sub_0_r, B2.
        destruct (nth_error _ c) as [x|]; auto.
    + apply (@binv_foreign k (n_ars n k) (_ :: _ :: _ :: _) (n_tr n)); auto.
      repeat (constructor; cbn; auto). apply open_bforeign; auto.
  - rewrite W1, W6. apply (@binv_foreign k _ [_] (n_tr n)); [|constructor; cbn; auto].
    unfold upd. destruct (Nat.eqb_spec k i) as [->|N]; auto.
    pose proof (inv_nouse _ I W0) as Z. pose proof (T i) as Ti. rewrite Z in Ti.
    exact Ti.
  - eapply Gen; [exact D2|constructor|reflexivity|reflexivity].
  - assert (N1 : e <> EvAbort) by (destruct E1 as [[-> _]|[-> _]]; discriminate).
    assert (N2 : e <> EvStartup) by (destruct E1 as [[-> _]|[-> _]]; discriminate).
    destruct (p_all_fields (n_next n) (n_ars n i) N1 N2) as (F1 & F2 & _).
    eapply Gen; [exact E2| |auto|now rewrite F2].
    apply Forall_app. split; [apply tr_su_bforeign; auto|repeat constructor].
  - assert (N1 : EvPrmend <> EvAbort) by discriminate.
    assert (N2 : EvPrmend <> EvStartup) by discriminate.
    destruct (p_all_fields (n_next n) (with_dev WArdy (n_ars n i)) N1 N2) as (F1 & F2 & _).
    eapply Gen; [exact M2| |auto|now rewrite F2].
    apply Forall_app. split; [apply tr_su_bforeign; auto|repeat constructor].
  - assert (N1 : EvData <> EvAbort) by discriminate.
    assert (N2 : EvData <> EvStartup) by discriminate.
    destruct (p_all_fields (n_next n) (n_ars n i) N1 N2) as (F1 & F2 & _).
    eapply Gen; [exact T3| |auto|cbn; now rewrite F2].
    apply Forall_app. split; [apply tr_su_bforeign; auto|repeat constructor].
  - eapply Gen; [exact I2|repeat constructor| |]; destruct (a_dev (n_ars n i)); reflexivity.
  - eapply Gen; [exact N1|repeat constructor| |]; destruct (a_io (n_ars n i)); try reflexivity.
    apply kind_set_start.
  - eapply Gen; [exact R2|constructor|reflexivity|reflexivity].
  - subst. apply T.
  - eapply Gen; [exact Y1|constructor|reflexivity|reflexivity].
  - eapply Gen; [exact Z1|constructor|reflexivity|reflexivity].
  - eapply Gen; [exact B3|constructor|reflexivity|reflexivity].
Qed.

(** ** Ownership of sub-slots *)
Definition oinv (n : net) : Prop :=
  forall s j, In s (n_subs n) -> s_owner s = Some j ->
    a_use (n_ars n j) = true /\ expected (n_ars n j) (s_key s) <> None.
Definition cinv (n : net) : Prop :=
  forall s j, In s (n_subs n) -> s_use s = true -> a_use (n_ars n j) = true ->
    expected (n_ars n j) (s_key s) <> None -> s_owner s <> None.
Definition kinv (n : net) : Prop :=
  NoDup (map s_key (filter s_use (n_subs n))).

Lemma key_eqb_eq : forall a b, key_eqb a b = true <-> a = b.
Proof.
  intros [[a1 a2] a3] [[b1 b2] b3]. unfold key_eqb.
  rewrite !andb_true_iff, !Z.eqb_eq. split; [intros [[-> ->] ->]; auto|].
  intros H; injection H as -> -> ->; auto.
Qed.
Lemma expected_in : forall a k,
  expected a k <> None <-> exists e, In e (a_exp a) /\ e_key e = k.
Proof.
  intros a k. unfold expected. destruct (find _ (a_exp a)) as [e|] eqn:E.
  - split; [|discriminate]. intros _. apply find_some in E. destruct E as [E1 E2].
    apply key_eqb_eq in E2. eauto.
  - split; [tauto|]. intros (e & He & <-).
    pose proof (find_none _ _ E _ He) as H. cbn in H.
    assert (key_eqb (e_key e) (e_key e) = true) by now apply key_eqb_eq. congruence.
Qed.
Lemma first_expecting_some : forall f order k j e,
  first_expecting f order k = Some (j, e) ->
  In j order /\ expected (f j) k = Some e.
Proof.
  intros f order; induction order as [|x r IH]; cbn; intros k j e H; [discriminate|].
  destruct (expected (f x) k) eqn:E.
  - injection H as -> ->. auto.
  - destruct (IH _ _ _ H). auto.
Qed.
Lemma first_expecting_none : forall f order k,
  first_expecting f order k = None -> forall j, In j order -> expected (f j) k = None.
Proof.
  intros f order; induction order as [|x r IH]; cbn; intros k H j Hj; [tauto|].
  destruct (expected (f x) k) eqn:E; [discriminate|].
  destruct Hj as [<-|Hj]; auto.
Qed.

Lemma clear_fst : forall f order i l,
  fst (clear_all f order i l) = map (fun s => fst (clear_one f order i s)) l.
Proof.
  intros f order i l; induction l as [|s r IH]; cbn; auto.
  destruct (clear_one f order i s) as [s' os]. destruct (clear_all f order i r) as [r' os'].
  cbn in *. now rewrite IH.
Qed.
Lemma clear_one_same : forall f order i s,
  s_use (fst (clear_one f order i s)) = s_use s /\ s_key (fst (clear_one f order i s)) = s_key s.
Proof.
  intros f order i s. unfold clear_one. destruct (owned_by i s); auto.
  destruct (first_expecting f order (s_key s)) as [[j e]|]; auto.
Qed.

Lemma in_put_cell : forall x l s, In s (put_cell x l) -> s = x \/ In s l.
Proof.
  intros x l; induction l as [|y r IH]; cbn; intros s H.
  - intuition.
  - destruct (s_use y); cbn in H; [|intuition].
    destruct H as [<-|H]; auto. destruct (IH _ H); auto.
Qed.
Lemma in_pull_first : forall k l s, In s (pull_first k l) ->
  In s l \/ exists s0, In s0 l /\ s = pull_cell s0.
Proof.
  intros k l; induction l as [|y r IH]; cbn; intros s H; auto.
  destruct (s_use y && key_eqb (s_key y) k); cbn in H.
  - destruct H as [<-|H]; eauto.
  - destruct H as [<-|H]; auto. destruct (IH _ H) as [Q|(s0 & Q & ->)]; eauto.
Qed.

(** How owners may change. *)
Definition own_ok (own : env) : Prop := forall q, e_ok own q ->
  (forall k, In k (q_claims q) -> exists e, In e (q_exp q) /\ e_key e = k) /\
  (q_check q = false \/ q_start q = false -> q_claims q = []).

Lemma claim_nil : forall i l, claim i [] l = l.
Proof.
  intros i l. unfold claim. rewrite <- (map_id l) at 2. apply map_ext. intros s. cbn.
  rewrite andb_false_r. reflexivity.
Qed.
Lemma in_claim : forall i ks l s, In s (claim i ks l) ->
  In s l \/ (s_owner s = Some i /\ In (s_key s) ks /\
             exists s0, In s0 l /\ s_key s0 = s_key s /\ s_use s0 = s_use s /\ s_owner s0 = None).
Proof.
  intros i ks l s H. unfold claim in H. apply in_map_iff in H. destruct H as (s0 & E & H).
  destruct (s_use s0 && match s_owner s0 with Some _ => false | None => true end
            && existsb (key_eqb (s_key s0)) ks) eqn:B; [|subst; auto].
  apply andb_true_iff in B. destruct B as [B1 B2]. apply andb_true_iff in B1.
  destruct B1 as [B0 B1]. apply existsb_exists in B2. destruct B2 as (k & Hk & Ek).
  apply key_eqb_eq in Ek. subst s k. right. cbn. split; auto. split; auto.
  exists s0. destruct (s_owner s0); [discriminate|]. auto.
Qed.

(** Atoms that leave sub-slots, use and expectations alone. *)
Lemma kept_atom : forall m own n n', atom m own n n' ->
  (n_subs n' = n_subs n /\ forall j, a_use (n_ars n' j) = a_use (n_ars n j) /\
                                     a_exp (n_ars n' j) = a_exp (n_ars n j)) \/
  (same_ars n n' /\ subs_step own n (n_subs n')) \/
  (exists q, e_ok own q /\ q_start q = false /\ same_ars n n' /\
     exists i, n_subs n' = claim i (q_claims q) (n_subs n)) \/
  (exists i, a_use (n_ars n i) = true /\ aborted i n n') \/
  (exists i q, e_ok own q /\ a_use (n_ars n i) = false /\
     (forall k, k <> i -> n_ars n' k = n_ars n k) /\ a_use (n_ars n' i) = true /\
     a_exp (n_ars n' i) = q_exp q /\ n_subs n' = claim i (q_claims q) (n_subs n) /\
     n_order n' = n_order n ++ [i] /\ 
     (q_check q = true /\ q_start q = true \/ q_check q = false /\ q_err q = false)).
Proof.
  intros m own n n' At.
  assert (Gen : forall i a' tm nx os, delta i n n' a' tm nx os ->
            a_use a' = a_use (n_ars n i) -> a_exp a' = a_exp (n_ars n i) ->
            n_subs n' = n_subs n /\ forall j, a_use (n_ars n' j) = a_use (n_ars n j) /\
                                     a_exp (n_ars n' j) = a_exp (n_ars n j)).
  { intros i a' tm nx os [A B C D E F G] H1 H2. split; auto. intros j.
    destruct (Nat.eq_dec j i) as [->|N]; [rewrite B; auto|rewrite A; auto]. }
  destruct At.
  - right; left. auto.
  - left. subst. auto.
  - right; right; left. exists q. eauto 6.
  - right; right; right; left. eauto.
  - right; right; right; right. exists i, q. rewrite !S1, !upd_same. split; auto. split; auto.
    split; [intros k N; rewrite S1, upd_other; auto|]. cbn. destruct S7. auto 8.
  - right; right; right; right. exists i, q. rewrite !W1, !upd_same. split; auto. split; auto.
    split; [intros k N; rewrite W1, upd_other; auto|]. cbn. destruct W7. auto 8.
  - left. eapply Gen; [exact D2|reflexivity|reflexivity].
  - left. destruct (p_all_keep e (n_next n) (n_ars n i)) as (K1 & _ & _ & _ & _ & _ & _ & _ & K9 & _).
    eapply Gen; eauto.
  - left. destruct (p_all_keep EvPrmend (n_next n) (with_dev WArdy (n_ars n i)))
      as (K1 & _ & _ & _ & _ & _ & _ & _ & K9 & _). eapply Gen; eauto.
  - left. destruct (p_all_keep EvData (n_next n) (n_ars n i))
      as (K1 & _ & _ & _ & _ & _ & _ & _ & K9 & _). eapply Gen; eauto.
  - left. eapply Gen; [exact I2|..]; destruct (a_dev (n_ars n i)); reflexivity.
  - left. eapply Gen; [exact N1|..]; destruct (a_io (n_ars n i)); reflexivity.
  - left. eapply Gen; [exact R2|reflexivity|reflexivity].
  - left. subst. auto.
  - left. eapply Gen; [exact Y1|reflexivity|reflexivity].
  - left. eapply Gen; [exact Z1|reflexivity|reflexivity].
  - left. eapply Gen; [exact B3|reflexivity|reflexivity].
Qed.

Lemma oinv_atom : forall m own n n', own_ok own -> inv m n -> oinv n ->
  atom m own n n' -> oinv n'.
Proof.
  intros m own n n' Ok I O At s j Hs Ho.
  destruct (kept_atom At) as [(Es & Ek)|[(Ea & Ss)|[(q & Oq & Qs & Ea & i & Es)|[(i & U & Ab)|K]]]].
  - rewrite Es in Hs. destruct (Ek j) as [E1 E2]. rewrite E1.
    unfold expected. rewrite E2. apply (O s j); auto.
  - rewrite Ea. inversion Ss as [Z|i q Oq Qc Uf Z|k mm id Z|k Z]; rewrite <- Z in Hs.
    + apply (O s j); auto.
    + destruct (Ok q Oq) as [_ Ok2]. rewrite (Ok2 (or_introl Qc)), claim_nil in Hs.
      apply (O s j); auto.
    + unfold plug in Hs. destruct (find_sub k (n_subs n)); [apply (O s j); auto|].
      destruct (first_expecting (n_ars n) (n_order n) k) as [[j' e]|] eqn:F; cbn in Hs;
        apply in_put_cell in Hs; destruct Hs as [->|Hs]; try (apply (O s j); auto).
      * cbn in *. injection Ho as <-. apply first_expecting_some in F. destruct F as [F1 F2].
        apply (v_order_use I) in F1. split; auto. congruence.
      * discriminate.
    + unfold pull in Hs. destruct (find_sub k (n_subs n)) as [s1|]; [|apply (O s j); auto].
      assert (Hs' : In s (pull_first k (n_subs n))) by (destruct (s_owner s1); exact Hs).
      apply in_pull_first in Hs'. destruct Hs' as [Hs'|(s0 & Hs' & ->)].
      * apply (O s j); auto.
      * cbn in *. apply (O s0 j); auto.
  - rewrite Ea. destruct (Ok q Oq) as [_ Ok2]. rewrite Es, (Ok2 (or_intror Qs)), claim_nil in Hs.
    apply (O s j); auto.
  - destruct Ab as (A & Oo & Os & _). destruct (inv_use _ I U) as (_ & Ar & _).
    rewrite Ar in *. rewrite Os in Hs. unfold clear_subs in Hs. rewrite clear_fst in Hs.
    apply in_map_iff in Hs. destruct Hs as (s0 & E & Hs).
    rewrite A. unfold clear_one in E.
    assert (Base : s_owner s0 <> Some i -> s0 = s ->
              a_use (upd (n_ars n) i ar0 j) = true /\ expected (upd (n_ars n) i ar0 j) (s_key s) <> None).
    { intros N ->. rewrite Ho in N. rewrite upd_other by congruence. apply (O s j); auto. }
    unfold owned_by in E.
    destruct (s_owner s0) as [i'|] eqn:Ow; [|apply Base; auto; discriminate].
    destruct (Nat.eqb_spec i' i) as [->|N]; [|apply Base; auto; congruence].
    destruct (first_expecting _ _ (s_key s0)) as [[j' e]|] eqn:F; cbn in E; subst s.
    + cbn in *. injection Ho as ->. apply first_expecting_some in F. destruct F as [F1 F2].
      assert (j <> i).
      { intros ->. revert F1. apply remove_first_notin. apply (v_order I). }
      rewrite upd_other in * by auto. split; [|congruence].
      apply (v_order_use I). eapply remove_first_in; eauto.
    + cbn in Ho. discriminate.
  - destruct K as (i & q & Oq & Uf & Ea & Ui & Ex & Es & _). rewrite Es in Hs.
    apply in_claim in Hs. destruct Hs as [Hs|(Hi & Hk & _)].
    + destruct (O s j Hs Ho) as [O1 O2].
      assert (j <> i) by congruence. rewrite Ea; auto.
    + assert (j = i) by congruence. subst j. split; auto.
      apply expected_in. rewrite Ex. apply (proj1 (Ok q Oq)); auto.
Qed.

(** An accepted connect request claims every sub-slot it expects. *)
Definition complete_ok (own : env) : Prop := forall q, e_ok own q ->
  (q_check q = false -> q_err q = true) /\
  (q_check q = true -> forall e, In e (q_exp q) -> In (e_key e) (q_claims q)).

Lemma cinv_atom : forall m own n n', complete_ok own -> inv m n -> cinv n ->
  atom m own n n' -> cinv n'.
Proof.
  intros m own n n' Ok I C At s j Hs Us Uj Ex.
  assert (Cl : forall i ks, In s (claim i ks (n_subs n)) -> a_use (n_ars n j) = true ->
               expected (n_ars n j) (s_key s) <> None -> s_owner s <> None).
  { intros i ks H H1 H2. apply in_claim in H. destruct H as [H|(Q & _)]; [|congruence].
    apply (C s j); auto. }
  destruct (kept_atom At) as [(Es & Ek)|[(Ea & Ss)|[(q & Oq & Qs & Ea & i & Es)|[(i & U & Ab)|K]]]].
  - rewrite Es in Hs. destruct (Ek j) as [E1 E2]. rewrite E1 in Uj.
    unfold expected in Ex. rewrite E2 in Ex. apply (C s j); auto.
  - rewrite Ea in *. inversion Ss as [Z|i q Oq Qc Uf Z|k mm id Z|k Z]; rewrite <- Z in Hs.
    + apply (C s j); auto.
    + eauto.
    + unfold plug in Hs. destruct (find_sub k (n_subs n)); [apply (C s j); auto|].
      destruct (first_expecting (n_ars n) (n_order n) k) as [[j' e]|] eqn:F; cbn in Hs;
        apply in_put_cell in Hs; destruct Hs as [->|Hs]; try (apply (C s j); auto).
      * cbn. discriminate.
      * cbn in *. apply (v_order_use I) in Uj.
        rewrite (first_expecting_none _ _ _ F _ Uj) in Ex. congruence.
    + unfold pull in Hs. destruct (find_sub k (n_subs n)) as [s1|]; [|apply (C s j); auto].
      assert (Hs' : In s (pull_first k (n_subs n))) by (destruct (s_owner s1); exact Hs).
      apply in_pull_first in Hs'. destruct Hs' as [Hs'|(s0 & Hs' & ->)].
      * apply (C s j); auto.
      * cbn in Us. discriminate.
  - rewrite Ea, Es in *. eauto.
  - destruct Ab as (A & Oo & Os & _). destruct (inv_use _ I U) as (_ & Ar & _).
    rewrite Ar in *. rewrite Os in Hs. unfold clear_subs in Hs. rewrite clear_fst in Hs.
    apply in_map_iff in Hs. destruct Hs as (s0 & E & Hs).
    rewrite A in Uj, Ex.
    assert (Nj : j <> i).
    { intros ->. rewrite upd_same in Uj. discriminate. }
    rewrite upd_other in Uj, Ex by auto.
    destruct (clear_one_same (upd (n_ars n) i ar0) (remove_first i (n_order n)) i s0) as [E1 E2].
    rewrite E in E1, E2. unfold clear_one in E.
    assert (O0 : s_owner s0 <> None) by (apply (C s0 j); congruence).
    destruct (owned_by i s0); [|cbn in E; congruence].
    destruct (first_expecting _ _ (s_key s0)) as [[j' e]|] eqn:F; cbn in E; subst s; cbn.
    + discriminate.
    + exfalso. apply Ex. cbn.
      rewrite <- (first_expecting_none _ _ _ F j); [rewrite upd_other; auto|].
      apply remove_first_in; auto. now apply (v_order_use I).
  - destruct K as (i & q & Oq & Uf & Ea & Ui & Exq & Es & _ & Qc). rewrite Es in Hs.
    destruct (Nat.eq_dec j i) as [->|N].
    + destruct (Ok q Oq) as [Ok1 Ok2]. destruct Qc as [[Qc _]|[Qc Qe]].
      2:{ specialize (Ok1 Qc). congruence. }
      apply expected_in in Ex. rewrite Exq in Ex. destruct Ex as (e & He & Ee).
      specialize (Ok2 Qc e He). rewrite Ee in Ok2.
      unfold claim in Hs. apply in_map_iff in Hs. destruct Hs as (s0 & E & Hs).
      destruct (s_owner s0) as [o|] eqn:Ow.
      { rewrite andb_false_r in E. cbn in E. subst. congruence. }
      assert (Ks : s_use s0 = s_use s /\ s_key s0 = s_key s).
      { rewrite <- E. destruct (s_use s0 && true && existsb (key_eqb (s_key s0)) (q_claims q)); auto. }
      destruct Ks as [K1 K2]. rewrite K1, Us, K2 in E. cbn in E.
      assert (B : existsb (key_eqb (s_key s)) (q_claims q) = true).
      { apply existsb_exists. exists (s_key s). split; auto. now apply key_eqb_eq. }
      rewrite B in E. rewrite <- E. cbn. discriminate.
    + rewrite Ea in Uj, Ex by auto. eauto.
Qed.

Lemma find_sub_none : forall k l, find_sub k l = None ->
  ~ In k (map s_key (filter s_use l)).
Proof.
  intros k l H HI. apply in_map_iff in HI. destruct HI as (s & <- & HI).
  apply filter_In in HI. destruct HI as [HI U].
  pose proof (find_none _ _ H _ HI) as Q. cbn in Q. rewrite U in Q.
  assert (key_eqb (s_key s) (s_key s) = true) by now apply key_eqb_eq. 
  rewrite H0 in Q. discriminate.
Qed.

Lemma put_cell_keys : forall x l, s_use x = true ->
  NoDup (map s_key (filter s_use l)) -> ~ In (s_key x) (map s_key (filter s_use l)) ->
  NoDup (map s_key (filter s_use (put_cell x l))).
Proof.
  intros x l Ux; induction l as [|y r IH]; cbn; intros N H.
  - rewrite Ux. cbn. constructor; auto.
  - destruct (s_use y) eqn:Uy; cbn in *.
    + rewrite Uy. cbn. inversion N; subst. constructor.
      * intros HI. apply in_map_iff in HI. destruct HI as (s & E & HI).
        apply filter_In in HI. destruct HI as [HI U].
        apply in_put_cell in HI. destruct HI as [->|HI]; [apply H; left; auto|].
        apply H2. rewrite <- E. apply in_map, filter_In. auto.
      * apply IH; auto.
    + rewrite Ux. cbn. constructor; auto.
Qed.
Lemma pull_keys : forall k l, NoDup (map s_key (filter s_use l)) ->
  NoDup (map s_key (filter s_use (pull_first k l))).
Proof.
  intros k l; induction l as [|y r IH]; cbn; intros N; auto.
  destruct (s_use y && key_eqb (s_key y) k) eqn:B; cbn.
  - apply andb_true_iff in B. destruct B as [B _]. rewrite B in N. cbn in N.
    now inversion N.
  - destruct (s_use y) eqn:U; cbn in *; [|auto]. inversion N; subst. constructor; auto.
    intros HI. apply H1. apply in_map_iff in HI. destruct HI as (s & E & HI).
    apply filter_In in HI. destruct HI as [HI Us].
    apply in_pull_first in HI. destruct HI as [HI|(s0 & _ & ->)]; [|discriminate].
    rewrite <- E. apply in_map, filter_In. auto.
Qed.
Lemma map_keys : forall (f : subslot -> subslot) l,
  (forall s, s_use (f s) = s_use s /\ s_key (f s) = s_key s) ->
  map s_key (filter s_use (map f l)) = map s_key (filter s_use l).
Proof.
  intros f l H; induction l as [|y r IH]; cbn; auto.
  destruct (H y) as [H1 H2]. rewrite H1. destruct (s_use y); cbn; congruence.
Qed.
Lemma claim_keys : forall i ks l,
  map s_key (filter s_use (claim i ks l)) = map s_key (filter s_use l).
Proof.
  intros i ks l. apply map_keys. intros s.
  destruct (s_use s && match s_owner s with Some _ => false | None => true end
            && existsb (key_eqb (s_key s)) ks); auto.
Qed.

Lemma kinv_atom : forall m own n n', kinv n -> atom m own n n' -> kinv n'.
Proof.
  intros m own n n' K At. unfold kinv in *.
  destruct (kept_atom At) as [(Es & Ek)|[(Ea & Ss)|[(q & Oq & Qs & Ea & i & Es)|[(i & U & Ab)|Q]]]].
  - rewrite Es; auto.
  - inversion Ss as [Z|i q Oq Qc Uf Z|k mm id Z|k Z].
    + auto.
    + now rewrite claim_keys.
    + unfold plug. destruct (find_sub k (n_subs n)) eqn:F; auto.
      apply find_sub_none in F.
      destruct (first_expecting (n_ars n) (n_order n) k) as [[j' e]|]; cbn [emit setsubs n_subs];
        apply put_cell_keys; auto.
    + unfold pull. destruct (find_sub k (n_subs n)) as [s1|]; auto.
      destruct (s_owner s1); cbn [emit setsubs n_subs]; apply pull_keys; auto.
  - rewrite Es, claim_keys; auto.
  - destruct Ab as (_ & _ & Os & _). rewrite Os. unfold clear_subs. rewrite clear_fst.
    rewrite map_keys; auto. intros s. apply clear_one_same.
  - destruct Q as (i & q & _ & _ & _ & _ & _ & Es & _). rewrite Es, claim_keys; auto.
Qed.

(** Runs that satisfy an environment hypothesis. *)
Lemma run_ind : forall m (E : input -> Prop) own (P : net -> Prop),
  (forall x, E x -> answers_consistently x /\ (e_own own = true -> own_session x) /\
             e_in own x) ->
  (forall n n', inv m n -> P n -> atom m own n n' -> P n') ->
  forall xs n, Forall E xs -> inv m n -> P n -> inv m (run m xs n) /\ P (run m xs n).
Proof.
  intros m E own P HE HA.
  assert (HP : forall n n', path m own n n' -> inv m n -> P n -> P n').
  { induction 1 as [n|n n1 n2 A Pt IH]; intros I H; auto.
    apply IH; [eapply inv_atom; eauto|]. eapply HA; eauto. }
  induction xs as [|x r IH]; cbn; intros n F I H; auto. inversion F; subst.
  destruct (HE x H2) as (E1 & E2 & E3).
  assert (Pt : path m own n (step m x n)) by (apply step_path; auto).
  apply IH; auto; [eapply inv_path; eauto|eapply HP; eauto].
Qed.

(** ** Data exchange starts only after a report that it is possible *)
Definition data_reported (tr : list obs) : Prop :=
  forall os i r, tr = os ++ OEvent (S i) EvData :: r -> reported i r = Some true.

Lemma data_reported_app : forall os tr, data_reported tr ->
  Forall (fun o => match o with OEvent (S _) EvData => False | _ => True end) os ->
  data_reported (os ++ tr).
Proof.
  induction os as [|o os IH]; cbn; intros tr D F; auto. inversion F; subst.
  intros [|o' os'] i r E; cbn in E.
  - injection E as -> E. tauto.
  - injection E as -> E. eapply (IH tr D H2); eauto.
Qed.
Lemma plain_nodata : forall os, Forall plain os ->
  Forall (fun o => match o with OEvent (S _) EvData => False | _ => True end) os.
Proof. intros os H. eapply Forall_impl; [|exact H]. intros [| | | | | | | | | | | | | | | ]; cbn; tauto. Qed.

Lemma data_reported_atom : forall m own n n', inv m n ->
  (forall i, tinv i (n_ars n i) (n_tr n)) -> data_reported (n_tr n) ->
  atom m own n n' -> data_reported (n_tr n').
Proof.
  intros m own n n' I T D At.
  assert (Gen : forall os, n_tr n' = os ++ n_tr n ->
     Forall (fun o => match o with OEvent (S _) EvData => False | _ => True end) os ->
     data_reported (n_tr n')).
  { intros os E F. rewrite E. apply data_reported_app; auto. }
  destruct At.
  - eapply Gen; eauto. now apply plain_nodata, quiet_plain.
  - subst. eapply (Gen (_ :: [])); [reflexivity|]. repeat constructor.
  - eapply (Gen (_ :: _)); [exact F6|]. constructor; [exact Logic.I|apply plain_nodata, su_open_plain].
  - destruct Ha as (_ & _ & _ & _ & _ & G). change (OEvent (a_arep (n_ars n i)) EvAbort :: n_tr n)
      with ([OEvent (a_arep (n_ars n i)) EvAbort] ++ n_tr n) in G. rewrite !app_assoc in G.
    eapply Gen; [exact G|].
    apply Forall_app. split.
    + apply plain_nodata, Forall_app. split; [apply clear_plain|apply tr_su_plain].
    + constructor; auto. destruct (a_arep (n_ars n i)); exact Logic.I.
  - eapply (Gen (_ :: _ :: _ :: _)); [exact S6|]. repeat (constructor; [exact Logic.I|]).
    apply plain_nodata, su_open_plain.
  - eapply (Gen (_ :: [])); [exact W6|]. repeat constructor.
  - apply (Gen []); [exact (d_tr D2)|constructor].
  - eapply Gen; [exact (d_tr E2)|]. apply Forall_app. split; [apply plain_nodata, tr_su_plain|].
    constructor; auto. destruct (a_arep (n_ars n i)); auto. destruct E1 as [[-> _]|[-> _]]; exact Logic.I.
  - eapply Gen; [exact (d_tr M2)|]. apply Forall_app. split; [apply plain_nodata, tr_su_plain|].
    constructor; auto. destruct (a_arep (n_ars n i)); exact Logic.I.
  - rewrite (d_tr T3), <- app_assoc. apply data_reported_app; [|apply plain_nodata, tr_su_plain].
    destruct (inv_use _ I T0) as (_ & Ar & _). rewrite Ar. cbn [app].
    intros [|o os] i' r E; cbn in E.
    + injection E as -> <-. destruct (T i') as (_ & _ & _ & _ & R & _). auto.
    + injection E as <- E. eapply D; eauto.
  - eapply Gen; [exact (d_tr I2)|]. repeat constructor.
  - eapply Gen; [exact (d_tr N1)|]. repeat constructor.
  - apply (Gen []); [exact (d_tr R2)|constructor].
  - subst. auto.
  - apply (Gen []); [exact (d_tr Y1)|constructor].
  - apply (Gen []); [exact (d_tr Z1)|constructor].
  - apply (Gen []); [exact (d_tr B3)|constructor].
Qed.

(** ** One connection per identifier *)
Definition uinv (n : net) : Prop :=
  forall i j, a_use (n_ars n i) = true -> a_use (n_ars n j) = true ->
    a_uuid (n_ars n i) = a_uuid (n_ars n j) -> i = j.

Lemma uinv_atom : forall m own n n', inv m n -> uinv n -> atom m own n n' -> uinv n'.
Proof.
  intros m own n n' I V At.
  assert (Gen : (forall k, a_use (n_ars n' k) = true -> a_use (n_ars n k) = true /\
                           a_uuid (n_ars n' k) = a_uuid (n_ars n k)) -> uinv n').
  { intros H i j Ui Uj E. destruct (H i Ui) as [A1 A2], (H j Uj) as [B1 B2].
    apply V; congruence. }
  assert (Del : forall i a' tm nx os, delta i n n' a' tm nx os ->
                a_use a' = a_use (n_ars n i) -> a_uuid a' = a_uuid (n_ars n i) -> uinv n').
  { intros i a' tm nx os [A B _ _ _ _ _] E1 E2. apply Gen. intros z.
    destruct (Nat.eq_dec z i) as [->|N]; [rewrite B, E1, E2; auto|rewrite A; auto]. }
  assert (New : forall i q a', (forall k, n_ars n' k = upd (n_ars n) i a' k) ->
                a_uuid a' = q_uuid q ->
                (forall j, a_use (n_ars n j) = true -> a_uuid (n_ars n j) <> q_uuid q) -> uinv n').
  { intros i q a' A Eq D k j Uk Uj E. rewrite !A in *. unfold upd in *.
    destruct (Nat.eqb_spec k i), (Nat.eqb_spec j i); subst; auto.
    - exfalso. apply (D j); congruence.
    - exfalso. apply (D k); congruence. }
  destruct At.
  - apply Gen. intros z. rewrite Q1; auto.
  - subst. apply Gen. intros z; cbn; auto.
  - apply Gen. intros z. rewrite F1; auto.
  - destruct Ha as (A & _). apply Gen. intros z. rewrite A. unfold upd.
    destruct (Nat.eqb_spec z i); auto. discriminate.
  - eapply New; eauto. reflexivity.
  - eapply New; eauto. reflexivity.
  - eapply Del; [exact D2|reflexivity|reflexivity].
  - destruct (p_all_keep e (n_next n) (n_ars n i)) as (K1 & _ & K3 & _). eapply Del; eauto.
  - destruct (p_all_keep EvPrmend (n_next n) (with_dev WArdy (n_ars n i))) as (K1 & _ & K3 & _).
    eapply Del; eauto.
  - destruct (p_all_keep EvData (n_next n) (n_ars n i)) as (K1 & _ & K3 & _). eapply Del; eauto.
  - eapply Del; [exact I2|..]; destruct (a_dev (n_ars n i)); reflexivity.
  - eapply Del; [exact N1|..]; destruct (a_io (n_ars n i)); reflexivity.
  - eapply Del; [exact R2|reflexivity|reflexivity].
  - subst. auto.
  - eapply Del; [exact Y1|reflexivity|reflexivity].
  - eapply Del; [exact Z1|reflexivity|reflexivity].
  - eapply Del; [exact B3|reflexivity|reflexivity].
Qed.

(** ** Only some inputs have some effects *)
Lemma effects_atom : forall m own n n', atom m own n n' ->
  exists os, n_tr n' = os ++ n_tr n /\
    (forall i k ix, In (OWrite i k ix) os -> e_in own (IWrite i k ix)) /\
    (forall i b, In (OInfo i b) os -> exists id, e_in own (IExpire id)).
Proof.
  intros m own n n' At.
  assert (Pl : forall os, Forall plain os ->
     (forall o, In o os -> match o with OWrite _ _ _ => False | _ => True end) ->
     (forall i k ix, In (OWrite i k ix) os -> e_in own (IWrite i k ix)) /\
     (forall i b, In (OInfo i b) os -> exists id, e_in own (IExpire id))).
  { intros os P W. rewrite Forall_forall in P. split.
    - intros i k ix H. destruct (W _ H).
    - intros i b H. destruct (P _ H). }
  assert (Qw : forall f c l (o : obs), (forall c k o, In o (f c k) -> match o with OWrite _ _ _ => False | _ => True end) ->
     In o (cr_obs f c l) -> match o with OWrite _ _ _ => False | _ => True end).
  { intros f c l; revert c. induction l as [|x r IH]; cbn; intros c o H Ho; [tauto|].
    apply in_app_iff in Ho. destruct Ho as [Ho|Ho]; [eapply IH; eauto|eapply H; eauto]. }
  assert (Qo : forall i c l o, In o (cr_obs (su_open i) c l) -> match o with OWrite _ _ _ => False | _ => True end).
  { intros i c l o. apply Qw. intros c' [] o' H; cbn in H; try tauto;
      destruct H as [<-|[]]; exact Logic.I. }
  assert (Qs : forall i e a o, In o (tr_su i e a) -> match o with OWrite _ _ _ => False | _ => True end).
  { intros i e a o. unfold tr_su. destruct (a_su a), e; cbn; try tauto;
      try (intros [<-|H]; [exact Logic.I|revert H]); apply Qw; intros c' [] o' H; cbn in H; try tauto;
      destruct H as [<-|[]]; exact Logic.I. }
  assert (Ev : forall i e a j e', e <> EvData \/ True ->
     (forall i' k ix, In (OWrite i' k ix) (tr_su i e a ++ [OEvent j e']) -> e_in own (IWrite i' k ix)) /\
     (forall i' b, In (OInfo i' b) (tr_su i e a ++ [OEvent j e']) -> exists id, e_in own (IExpire id))).
  { intros i e a j e' _. pose proof (tr_su_plain i e a) as P. rewrite Forall_forall in P. split.
    - intros i' k ix H. apply in_app_iff in H. destruct H as [H|[H|[]]]; [|discriminate].
      destruct (Qs _ _ _ _ H).
    - intros i' b H. apply in_app_iff in H. destruct H as [H|[H|[]]]; [|discriminate].
      destruct (P _ H). }
  destruct At.
  - exists os. split; auto. apply Pl; [now apply quiet_plain|].
    intros o Ho. rewrite Forall_forall in Q7. specialize (Q7 o Ho). destruct o; cbn in *; tauto.
  - subst. exists [OWrite i k ix]. split; auto. split.
    + intros i' k' ix' [H|[]]. injection H as -> -> ->. auto.
    + intros i' b [H|[]]. discriminate.
  - eexists (_ :: _). split; [exact F6|]. apply Pl.
    + constructor; [exact Logic.I|apply su_open_plain].
    + intros o [<-|Ho]; [exact Logic.I|eapply Qo; eauto].
  - destruct Ha as (_ & _ & _ & _ & _ & G). 
    set (a := n_ars n i) in *.
    exists (snd (clear_subs n i (match a_arep a with 0 => n_order n | S j => remove_first j (n_order n) end))
            ++ (tr_su i EvAbort a ++ [OEvent (a_arep a) EvAbort])).
    split; [rewrite G, <- !app_assoc; reflexivity|].
    destruct (Ev i EvAbort a (a_arep a) EvAbort (or_intror Logic.I)) as [E1 E2].
    split.
    + intros i' k ix H. apply in_app_iff in H. destruct H as [H|H]; [|eauto].
      apply clear_obs_released in H. destruct H as (j & k' & H). discriminate.
    + intros i' b H. apply in_app_iff in H. destruct H as [H|H]; [|eauto].
      apply clear_obs_released in H. destruct H as (j & k' & H). discriminate.
  - eexists (_ :: _ :: _ :: _). split; [exact S6|]. split.
    + intros i' k ix [H|[H|[H|H]]]; try discriminate. destruct (Qo _ _ _ _ H).
    + intros i' b [H|[H|[H|H]]]; try discriminate.
      pose proof (su_open_plain i (map (fun k => mkIocr k false) (q_kinds q)) 0) as P.
      rewrite Forall_forall in P. destruct (P _ H).
  - exists [OConnected i]. split; auto. split; intros ? ? *; [intros [H|[]]|intros [H|[]]]; discriminate.
  - exists []. split; [exact (d_tr D2)|]. split; intros; contradiction.
  - eexists. split; [exact (d_tr E2)|]. apply Ev. now right.
  - eexists. split; [exact (d_tr M2)|]. apply Ev. now right.
  - eexists. split; [exact (d_tr T3)|]. apply Ev. now right.
  - eexists. split; [exact (d_tr I2)|]. split.
    + intros i' k ix [H|[]]. discriminate.
    + intros i' b [H|[]]. auto.
  - eexists. split; [exact (d_tr N1)|]. split.
    + intros i' k ix [H|[]]. discriminate.
    + intros i' b' [H|[]]. discriminate.
  - exists []. split; [exact (d_tr R2)|]. split; intros; contradiction.
  - subst. exists []. split; auto. split; intros; contradiction.
  - exists []. split; [exact (d_tr Y1)|]. split; intros; contradiction.
  - exists []. split; [exact (d_tr Z1)|]. split; intros; contradiction.
  - exists []. split; [exact (d_tr B3)|]. split; intros; contradiction.
Qed.

Lemma effects_path : forall m own n n', path m own n n' ->
  exists os, n_tr n' = os ++ n_tr n /\
    (forall i k ix, In (OWrite i k ix) os -> e_in own (IWrite i k ix)) /\
    (forall i b, In (OInfo i b) os -> exists id, e_in own (IExpire id)).
Proof.
  induction 1 as [n|n n1 n2 A P IH].
  - exists []. split; auto. split; intros; contradiction.
  - destruct (effects_atom A) as (os1 & E1 & W1 & I1). destruct IH as (os2 & E2 & W2 & I2).
    exists (os2 ++ os1). split; [rewrite E2, E1, app_assoc; reflexivity|]. split.
    + intros i k ix H. apply in_app_iff in H. destruct H; eauto.
    + intros i b H. apply in_app_iff in H. destruct H; eauto.
Qed.
