(** How the trace of observable effects relates to the state of the
    connections in every reachable state of CmModel.v. *)

From Coq Require Import List Arith Bool ZArith Lia.
From Verif Require Import Base CmModel CmSpec CmLemmas CmAtoms CmSteps.
Import ListNotations.
Set Implicit Arguments.
Open Scope nat_scope.

(** ** Effects that do not concern connection [k] *)
Definition foreign (k : nat) (o : obs) : Prop :=
  match o with
  | OEvent a _ => a <> S k
  | OInd i _ _ => i <> k
  | OInfo i _ => i <> k
  | _ => True
  end.
Definition plain (o : obs) : Prop :=
  match o with OEvent _ _ | OInd _ _ _ | OInfo _ _ => False | _ => True end.

Lemma plain_foreign : forall k os, Forall plain os -> Forall (foreign k) os.
Proof. intros k os H. eapply Forall_impl; [|exact H]. intros [| | | | | | | | | | | | | | | ]; cbn; tauto. Qed.
Lemma quiet_plain : forall os, Forall quiet os -> Forall plain os.
Proof. intros os H. eapply Forall_impl; [|exact H]. intros [| | | | | | | | | | | | | | | ]; cbn; tauto. Qed.

Lemma since_foreign : forall k os tr, Forall (foreign k) os ->
  since (S k) (os ++ tr) = since (S k) tr.
Proof.
  induction 1 as [|o r Ho Hr IH]; cbn [app]; auto.
  destruct o; cbn in *; auto. destruct (Nat.eqb_spec arep (S k)); [congruence|auto].
Qed.
Lemma told_foreign : forall k c os tr, Forall (foreign k) os ->
  told k c (os ++ tr) = told k c tr.
Proof.
  induction 1 as [|o r Ho Hr IH]; cbn [app]; auto.
  destruct o; cbn -[Nat.eqb] in *; auto.
  - destruct (Nat.eqb_spec arep (S k)); [congruence|auto].
  - destruct (Nat.eqb_spec i k); [congruence|auto].
Qed.
Lemma reported_foreign : forall k os tr, Forall (foreign k) os ->
  reported k (os ++ tr) = reported k tr.
Proof.
  induction 1 as [|o r Ho Hr IH]; cbn [app]; auto.
  destruct o; cbn -[Nat.eqb] in *; auto.
  - destruct e; auto. destruct (Nat.eqb_spec arep (S k)); [congruence|auto].
  - destruct (Nat.eqb_spec i k); [congruence|auto].
Qed.
Lemma phase_foreign : forall k os tr, Forall (foreign k) os ->
  phase_of (S k) (os ++ tr) = phase_of (S k) tr.
Proof.
  induction 1 as [|o r Ho Hr IH]; cbn [app]; auto.
  destruct o; cbn in *; auto. destruct (Nat.eqb_spec arep (S k)); [congruence|auto].
Qed.

Lemma cr_obs_forall : forall (P : obs -> Prop) f l c,
  (forall c k, Forall P (f c k)) -> Forall P (cr_obs f c l).
Proof.
  intros P f l; induction l as [|x r IH]; cbn; intros c H; auto.
  apply Forall_app. split; auto.
Qed.
Lemma su_open_plain : forall i l c, Forall plain (cr_obs (su_open i) c l).
Proof. intros. apply cr_obs_forall. intros c' []; repeat constructor. Qed.
Lemma su_close_plain : forall i l c, Forall plain (cr_obs (su_close i) c l).
Proof. intros. apply cr_obs_forall. intros c' []; repeat constructor. Qed.
Lemma su_run_plain : forall i l c, Forall plain (cr_obs (su_run i) c l).
Proof. intros. apply cr_obs_forall. intros c' []; repeat constructor. Qed.
Lemma tr_su_plain : forall i e a, Forall plain (tr_su i e a).
Proof.
  intros i e a. unfold tr_su. destruct (a_su a), e; auto using su_run_plain.
  - constructor; [exact Logic.I|apply su_close_plain].
  - constructor; [exact Logic.I|apply su_close_plain].
Qed.
Lemma clear_obs_released : forall f order i l o,
  In o (snd (clear_all f order i l)) -> exists j k, o = OReleased j k.
Proof.
  intros f order i l; induction l as [|s r IH]; cbn; intros o H; [tauto|].
  unfold clear_one in H.
  destruct (clear_all f order i r) as [r' os'] eqn:E. cbn in IH.
  destruct (owned_by i s); [destruct (first_expecting f order (s_key s)) as [[j e]|]|];
    cbn in H; rewrite ?in_app_iff in H; cbn in H; [|intuition|intuition].
  destruct H as [H|H]; auto.
  destruct ((e_mod e =? s_mod s)%Z && (e_sub e =? s_ident s)%Z); [|easy].
  destruct H as [<-|[]]. eauto.
Qed.
Lemma clear_plain : forall f order i l, Forall plain (snd (clear_all f order i l)).
Proof.
  intros. apply Forall_forall. intros o H. apply clear_obs_released in H.
  destruct H as (j & k & ->). exact Logic.I.
Qed.

(** ** Events, indications and reports *)
Definition tinv (i : nat) (a : ar) (tr : list obs) : Prop :=
  (a_su a <> SuStartup -> since (S i) tr = None) /\
  (a_su a = SuStartup ->
     exists l, since (S i) tr = Some l /\
       (a_wrr a = WrStartup <-> ~ In EvPrmend l) /\
       (a_wrr a = WrData -> In EvApplrdy l) /\
       (a_dev a = DevData <-> In EvData l)) /\
  (a_io a = IoStartup -> forall c, told i c tr = None) /\
  (a_io a = IoWdata ->
     forall c, exists b, told i c tr = Some b /\
       (forall x, nth_error (a_crs a) c = Some x -> is_consumer (io_kind x) = true ->
                  io_start x = b)) /\
  (a_ready a = true -> reported i tr = Some true) /\
  (a_dev a = WPeind -> a_ready a = false).

Lemma tinv_foreign : forall i a os tr, tinv i a tr -> Forall (foreign i) os ->
  tinv i a (os ++ tr).
Proof.
  intros i a os tr (A & B & C & D & E & F) H. unfold tinv.
  rewrite (since_foreign tr H), (reported_foreign tr H).
  refine (conj A (conj B (conj _ (conj _ (conj E F))))).
  - intros Q c. rewrite (told_foreign c tr H). auto.
  - intros Q c. rewrite (told_foreign c tr H). auto.
Qed.

(** Only these fields matter. *)
Lemma tinv_ext : forall i a b tr, tinv i a tr ->
  a_su b = a_su a -> a_wrr b = a_wrr a -> a_dev b = a_dev a -> a_io b = a_io a ->
  a_crs b = a_crs a -> a_ready b = a_ready a -> tinv i b tr.
Proof.
  intros i a b tr H E1 E2 E3 E4 E5 E6. unfold tinv in *.
  rewrite E1, E2, E3, E4, E5, E6. exact H.
Qed.

Lemma nth_set_nth : forall A c (x : A) l c',
  nth_error (set_nth c x l) c' =
  if c' =? c then match nth_error l c with Some _ => Some x | None => None end
  else nth_error l c'.
Proof.
  induction c as [|c IH]; intros x [|y r] [|c']; cbn; auto.
  destruct (c' =? c); auto.
Qed.
Lemma nth_set_start : forall c b l c',
  nth_error (set_start c b l) c' =
  if c' =? c then option_map (fun x => mkIocr (io_kind x) b) (nth_error l c)
  else nth_error l c'.
Proof.
  intros c b l c'. unfold set_start. destruct (nth_error l c) eqn:E.
  - rewrite nth_set_nth, E. reflexivity.
  - destruct (Nat.eqb_spec c' c); subst; auto.
Qed.

Section Events.
  Variables (m : nat) (own : env).

  Lemma tinv_prmend : forall i a id tr os d,
    (idle a \/ active a) -> tinv i a tr -> Forall plain os ->
    (d = a_dev a \/ d = WArdy) -> (d = WArdy -> a_dev a <> DevData) ->
    tinv i (p_all EvPrmend id (with_dev d a)) (os ++ OEvent (S i) EvPrmend :: tr).
  Proof.
    intros i a id tr os d St T P Hd Hd'. apply tinv_foreign; [|now apply plain_foreign].
    assert (N1 : EvPrmend <> EvAbort) by discriminate.
    assert (N2 : EvPrmend <> EvStartup) by discriminate.
    destruct (p_all_fields id (with_dev d a) N1 N2) as (F1 & F2 & F3 & F4 & _).
    destruct (p_all_keep EvPrmend id (with_dev d a)) as (_ & _ & _ & K4 & _ & K6 & _).
    set (b := p_all EvPrmend id (with_dev d a)) in *. clearbody b.
    unfold p_wrr in F3. unfold p_io in F4. cbn in *.
    destruct T as (A & B & C & D & E & F).
    unfold tinv. rewrite F1, F2, K4, K6. cbn. rewrite Nat.eqb_refl.
    refine (conj _ (conj _ (conj _ (conj _ (conj E _))))).
    - intros Q. rewrite (A Q). reflexivity.
    - intros Q. destruct (B Q) as (l & B1 & B2 & B3 & B4). rewrite B1. cbn.
      exists (EvPrmend :: l). split; auto. split; [|split].
      + split; [|intros N; exfalso; apply N; now left].
        intros W. exfalso. destruct St as [Id|Ac].
        * unfold idle in Id. rewrite W in F3. destruct Id as (_ & Y & _). congruence.
        * destruct (a_wrr a) eqn:Wa; cbn in F3; try congruence.
      + intros W. right. apply B3. destruct (a_wrr a) eqn:Wa; cbn in F3; congruence.
      + assert (DD : d = DevData <-> a_dev a = DevData).
        { destruct Hd as [->| ->]; [tauto|]. split; [discriminate|]. intros; tauto. }
        rewrite DD, B4. cbn. split; [now right|]. intros [Q'|Q']; [discriminate|auto].
    - intros Q c. exfalso. destruct (a_io a) eqn:Io; cbn in F4; try congruence.
    - intros Q c. destruct (a_io a) eqn:Io; cbn in F4; try congruence.
      + (* first PRMEND *) rewrite (C eq_refl c). exists false. split; auto.
        intros x Hx Hc. destruct St as [Id|Ac].
        * unfold idle in Id. destruct Id as (_ & _ & Y & _). congruence.
        * destruct Ac as (_ & _ & _ & _ & _ & _ & _ & _ & _ & _ & Y & _).
          apply Y; auto. eapply nth_error_In; eauto.
      + destruct (D eq_refl c) as (v & D1 & D2). rewrite D1. exists v. auto.
    - intros Q. destruct Hd as [->| ->]; auto. discriminate.
  Qed.

  Lemma tinv_applrdy : forall i a id tr os,
    active a -> tinv i a tr -> Forall plain os -> 
    tinv i (p_all EvApplrdy id a) (os ++ OEvent (S i) EvApplrdy :: tr).
  Proof.
    intros i a id tr os Ac T P. apply tinv_foreign; [|now apply plain_foreign].
    assert (N1 : EvApplrdy <> EvAbort) by discriminate.
    assert (N2 : EvApplrdy <> EvStartup) by discriminate.
    destruct (p_all_fields id a N1 N2) as (F1 & F2 & F3 & F4 & _).
    destruct (p_all_keep EvApplrdy id a) as (_ & _ & _ & K4 & _ & K6 & _).
    set (b := p_all EvApplrdy id a) in *. clearbody b.
    assert (F4' : a_io b = a_io a) by (rewrite F4; unfold p_io; destruct (a_io a) eqn:Q; cbn; congruence).
    destruct Ac as (X1 & _).
    destruct T as (A & B & C & D & E & F).
    unfold tinv. rewrite F1, F2, F4', K4, K6. cbn. rewrite Nat.eqb_refl.
    refine (conj _ (conj _ (conj C (conj D (conj E F))))).
    - intros; congruence.
    - intros _. destruct (B X1) as (l & B1 & B2 & B3 & B4). rewrite B1. cbn.
      exists (EvApplrdy :: l). split; auto. split; [|split].
      + rewrite F3. unfold p_wrr. destruct (a_wrr a) eqn:W; rewrite ?W; cbn;
        (rewrite <- ?B2 || idtac); cbn in *; intuition congruence.
      + intros _. now left.
      + rewrite B4. cbn. intuition congruence.
  Qed.

  Lemma tinv_data : forall i a id tr os,
    active a -> a_ready a = true -> a_dev a <> DevData -> tinv i a tr -> Forall plain os ->
    tinv i (with_dev DevData (p_all EvData id a)) (os ++ OEvent (S i) EvData :: tr).
  Proof.
    intros i a id tr os Ac Rd Nd T P. apply tinv_foreign; [|now apply plain_foreign].
    assert (N1 : EvData <> EvAbort) by discriminate.
    assert (N2 : EvData <> EvStartup) by discriminate.
    destruct (p_all_fields id a N1 N2) as (F1 & F2 & F3 & F4 & _).
    destruct (p_all_keep EvData id a) as (_ & _ & _ & K4 & _ & K6 & _).
    set (b := p_all EvData id a) in *. clearbody b.
    destruct Ac as (X1 & X2 & X3 & X4 & X5 & X6 & X7 & X8 & X9 & X10 & _).
    assert (Io : a_io b = IoData).
    { rewrite F4. unfold p_io. destruct X4 as [Y|[Y|Y]].
      - exfalso. now apply (X10 Rd).
      - rewrite Y. reflexivity.
      - apply X7 in Y. congruence. }
    assert (Wr : a_wrr b = a_wrr a) by (rewrite F3; unfold p_wrr; destruct (a_wrr a) eqn:Q; cbn; congruence).
    destruct T as (A & B & C & D & E & F).
    unfold tinv. cbn [a_su a_wrr a_dev a_io a_crs a_ready with_dev].
    rewrite F1, Wr, Io, K6. cbn [since reported told]. rewrite Nat.eqb_refl.
    refine (conj _ (conj _ (conj _ (conj _ (conj E _))))); try (intros; congruence).
    intros _. destruct (B X1) as (l & B1 & B2 & B3 & B4). rewrite B1. cbn.
    exists (EvData :: l). split; auto. split; [|split].
    - rewrite B2. cbn. split; [intros H [Q|Q]; [discriminate|exact (H Q)]|].
      intros H Q. apply H. now right.
    - intros W. right. auto.
    - split; auto. intros _. now left.
  Qed.

  Lemma tinv_atom : forall n n', inv m n -> (forall i, tinv i (n_ars n i) (n_tr n)) ->
    atom m own n n' -> forall k, tinv k (n_ars n' k) (n_tr n').
  Proof.
    intros n n' I T At k.
    assert (Gen : forall i a' tm nx os, delta i n n' a' tm nx os -> Forall (foreign k) os ->
                  k <> i -> tinv k (n_ars n' k) (n_tr n')).
    { intros i a' tm nx os [A B C D E F G] H N. rewrite A, G by auto.
      apply tinv_foreign; auto. }
    destruct At.
    - rewrite Q1, Q6. apply tinv_foreign; auto. now apply plain_foreign, quiet_plain.
    - subst. apply (@tinv_foreign k (n_ars n k) [_] (n_tr n)); auto. constructor; cbn; auto.
    - rewrite F1, F6. apply (@tinv_foreign k (n_ars n k) (_ :: _) (n_tr n)); auto.
      constructor; [exact Logic.I|]. apply plain_foreign, su_open_plain.
    - (* abort *)
      destruct Ha as (A & _ & _ & _ & _ & G). destruct (inv_use _ I Hu) as (_ & Ar & _).
      rewrite A, G, Ar. rewrite app_assoc. set (os := _ ++ tr_su _ _ _).
      assert (P : Forall plain os).
      { apply Forall_app. split; [apply clear_plain|apply tr_su_plain]. }
      clearbody os. apply tinv_foreign; [|now apply plain_foreign].
      unfold upd. destruct (Nat.eqb_spec k i) as [->|N].
      + unfold tinv; cbn. rewrite Nat.eqb_refl.
        refine (conj _ (conj _ (conj _ (conj _ (conj _ _))))); auto; discriminate.
      + apply (@tinv_foreign k (n_ars n k) [_] (n_tr n)); auto.
        constructor; cbn; auto.
    - (* start *)
      rewrite S1, S6. unfold upd. destruct (Nat.eqb_spec k i) as [->|N].
      + unfold tinv, started_ar; cbn. rewrite Nat.eqb_refl.
        refine (conj _ (conj _ (conj _ (conj _ (conj _ _))))); auto; try discriminate; try congruence.
        intros _. exists []. cbn. split; auto. split; [tauto|]. split; [discriminate|].
        split; [discriminate|tauto].
      + apply (@tinv_foreign k (n_ars n k) (_ :: _ :: _ :: _) (n_tr n)); auto.
        repeat (constructor; cbn; auto). apply plain_foreign, su_open_plain.
    - (* waiting for the indication *)
      rewrite W1, W6. apply (@tinv_foreign k _ [_] (n_tr n)); [|constructor; cbn; auto].
      unfold upd. destruct (Nat.eqb_spec k i) as [->|N]; auto.
      pose proof (inv_nouse _ I W0) as Z. pose proof (T i) as Ti. rewrite Z in Ti.
      destruct Ti as (A & _). unfold tinv, wcind_ar; cbn.
      refine (conj _ (conj _ (conj _ (conj _ (conj _ _))))); auto; try discriminate.
    - (* dev *)
      destruct (Nat.eq_dec k i) as [->|N]; [|eapply Gen; eauto].
      destruct (T i) as (A & B & C & D & E & F).
      rewrite (d_self D2), (d_tr D2). unfold tinv. cbn.
      refine (conj A (conj _ (conj C (conj D (conj E _))))).
      + intros Q. destruct (B Q) as (l & B1 & B2 & B3 & B4). exists l. split; auto. split; auto.
        split; auto. rewrite <- B4.
        destruct D1 as [(U & -> & _)|[(U & -> & _)|(U & ->)]]; rewrite U; split; discriminate.
      + intros ->. destruct D1 as [(_ & U & _)|[(_ & U & _)|(_ & U)]]; discriminate.
    - (* event *)
      destruct (inv_use _ I E0) as (_ & Ar & St).
      destruct (Nat.eq_dec k i) as [->|N].
      2:{ eapply Gen; eauto. apply Forall_app. split; [apply plain_foreign, tr_su_plain|].
          constructor; auto. cbn. congruence. }
      rewrite (d_self E2), (d_tr E2), <- app_assoc, Ar. cbn [app].
      destruct E1 as [[-> _]|[-> Dv]].
      + replace (n_ars n i) with (with_dev (a_dev (n_ars n i)) (n_ars n i)) at 1
          by (destruct (n_ars n i); reflexivity).
        apply tinv_prmend; auto using tr_su_plain. congruence.
      + apply tinv_applrdy; auto using tr_su_plain.
        destruct St as [(Q & _)|]; auto. congruence.
    - (* prmend *)
      destruct (inv_use _ I M0) as (_ & Ar & St).
      destruct (Nat.eq_dec k i) as [->|N].
      2:{ eapply Gen; eauto. apply Forall_app. split; [apply plain_foreign, tr_su_plain|].
          constructor; auto. cbn. congruence. }
      rewrite (d_self M2), (d_tr M2), <- app_assoc, Ar. cbn [app].
      apply tinv_prmend; auto using tr_su_plain. congruence.
    - (* data *)
      destruct (inv_use _ I T0) as (_ & Ar & St).
      destruct (Nat.eq_dec k i) as [->|N].
      2:{ eapply Gen; eauto. apply Forall_app. split; [apply plain_foreign, tr_su_plain|].
          constructor; auto. cbn. congruence. }
      rewrite (d_self T3), (d_tr T3), <- app_assoc, Ar. cbn [app].
      apply tinv_data; auto using tr_su_plain.
      + destruct St as [(Q & _)|]; auto. destruct T1; congruence.
      + destruct T1; congruence.
    - (* info *)
      destruct (Nat.eq_dec k i) as [->|N].
      2:{ eapply Gen; eauto. constructor; cbn; auto. }
      destruct (inv_use _ I I0) as (_ & Ar & St).
      destruct (T i) as (A & B & C & D & E & F).
      rewrite (d_self I2), (d_tr I2). cbn [app].
      set (a := n_ars n i) in *.
      assert (Q : forall r, (r = true -> data_possible a = true) -> (a_dev a = WPeind -> r = false) ->
                  tinv i (with_ready r a) (OInfo i (data_possible a) :: n_tr n)).
      { intros r Hr Hw. unfold tinv; cbn. rewrite Nat.eqb_refl.
        refine (conj A (conj B (conj C (conj D (conj _ Hw))))).
        intros R. f_equal. auto. }
      assert (Q' : a_ready a = false -> tinv i a (OInfo i (data_possible a) :: n_tr n)).
      { intros R. eapply tinv_ext; [apply (Q (a_ready a))|..]; auto. congruence. }
      assert (Ac : active a).
      { destruct St as [(_ & _ & Y & _)|]; auto. congruence. }
      destruct Ac as (X1 & X2 & X3 & X4 & X5 & X6 & X7 & _).
      destruct (a_dev a) eqn:Dv; try (apply Q; auto; discriminate); try (apply Q'; auto);
        exfalso; try (destruct X3 as [Y|[Y|[Y|[Y|Y]]]]; discriminate).
      pose proof (proj1 X7 eq_refl). congruence.
    - (* indication *)
      destruct (Nat.eq_dec k i) as [->|N].
      2:{ eapply Gen; eauto. constructor; cbn; auto. }
      destruct (T i) as (A & B & C & D & E & F).
      rewrite (d_self N1), (d_tr N1). cbn [app].
      set (a := n_ars n i) in *.
      assert (Q : a_io a <> IoWdata -> tinv i a (OInd i c b :: n_tr n)).
      { intros Nw. unfold tinv; cbn. rewrite Nat.eqb_refl. cbn.
        refine (conj A (conj B (conj _ (conj _ (conj E F))))); try congruence.
        intros Q0 c'. destruct (Nat.eqb_spec c c').
        - rewrite (C Q0). reflexivity.
        - auto. }
      destruct (a_io a) eqn:Io; try (apply Q; discriminate).
      clear Q. unfold tinv; cbn. rewrite Nat.eqb_refl, Io. cbn.
      refine (conj A (conj B (conj _ (conj _ (conj E F))))); [congruence|].
      intros _ c'. destruct (D eq_refl c') as (v & D1 & D2).
      rewrite Nat.eqb_sym. destruct (Nat.eqb_spec c' c) as [->|Nc].
      + rewrite D1. exists b. split; auto. intros x Hx _.
        rewrite nth_set_start, Nat.eqb_refl in Hx.
        destruct (nth_error (a_crs a) c); cbn in Hx; [|discriminate]. now injection Hx as <-.
      + exists v. split; auto. intros x Hx Hc. rewrite nth_set_start in Hx.
        destruct (Nat.eqb_spec c' c); [congruence|]. auto.
    - (* restart *)
      destruct (Nat.eq_dec k i) as [->|N]; [|eapply Gen; eauto].
      rewrite (d_self R2), (d_tr R2). eapply tinv_ext; [apply T|..]; reflexivity.
    - subst. apply T.
    - destruct (Nat.eq_dec k i) as [->|N]; [|eapply Gen; eauto].
      rewrite (d_self Y1), (d_tr Y1). eapply tinv_ext; [apply T|..]; reflexivity.
    - destruct (Nat.eq_dec k i) as [->|N]; [|eapply Gen; eauto].
      rewrite (d_self Z1), (d_tr Z1). eapply tinv_ext; [apply T|..]; reflexivity.
    - destruct (Nat.eq_dec k i) as [->|N]; [|eapply Gen; eauto].
      rewrite (d_self B3), (d_tr B3). eapply tinv_ext; [apply T|..]; reflexivity.
  Qed.
End Events.
