(** Lemmas about the layout of an accepted relation: what is found for each
    entry, and the sum of the lengths. *)
From Coq Require Import List ZArith Arith Bool Lia FinFun.
From Verif Require Import Base CpmModel BlockModel ConnModel ConnSpec ConnLemmas ConnExp.
Import ListNotations.
Local Open Scope Z_scope.

(** * Distinct keys *)

Definition keys_of (g : apientry -> list fdesc) (apis : list apientry) : list key :=
  flat_map (fun e => map (fkey (ae_api e)) (g e)) apis.

Lemma NoDup_app_intro : forall A (l m : list A), NoDup l -> NoDup m -> (forall x, In x l -> ~ In x m) -> NoDup (l ++ m).
Proof.
  induction l as [|a r IH]; intros m N1 N2 D; [assumption|]. inversion N1; subst. cbn. constructor.
  - intros Hin. apply in_app_or in Hin. destruct Hin as [Hin|Hin]; [tauto|]. apply (D a); [now left|assumption].
  - apply IH; auto. intros x Hx. apply D. now right.
Qed.

Lemma NoDup_app_elim : forall A (l m : list A), NoDup (l ++ m) -> NoDup l /\ NoDup m /\ forall x, In x l -> ~ In x m.
Proof.
  induction l as [|a r IH]; intros m N; cbn in N; [repeat split; [constructor|assumption|intros x []]|].
  inversion N as [|? ? Hn N']; subst. destruct (IH _ N') as (A1 & A2 & A3). split; [|split].
  - constructor; [|assumption]. intros Hin. apply Hn. apply in_or_app. now left.
  - assumption.
  - intros x [<-|Hx]; [|now apply A3]. intros Hm. apply Hn. apply in_or_app. now right.
Qed.

Lemma NoDup_fkey : forall a l, NoDup (map fplace l) -> NoDup (map (fkey a) l).
Proof.
  induction l as [|f r IH]; intros N; [constructor|]. cbn in *. inversion N as [|? ? Hn N']; subst. constructor; [|auto].
  intros Hin. apply in_map_iff in Hin. destruct Hin as (g & E & Hin). apply Hn. apply in_map_iff. exists g. split; [|assumption].
  unfold fkey in E. unfold fplace. congruence.
Qed.

Lemma keys_nodup : forall g apis, NoDup (map ae_api apis) -> (forall e, In e apis -> NoDup (map fplace (g e))) -> NoDup (keys_of g apis).
Proof.
  intros g. induction apis as [|e r IH]; intros N H; [constructor|]. cbn in N. inversion N as [|? ? Hn N']; subst.
  cbn. apply NoDup_app_intro.
  - apply NoDup_fkey, H. now left.
  - apply IH; [assumption|]. intros e' He. apply H. now right.
  - intros k Hk Hk2. apply in_map_iff in Hk. destruct Hk as (f & <- & _).
    unfold keys_of in Hk2. apply in_flat_map in Hk2. destruct Hk2 as (e' & He & Hk2).
    apply in_map_iff in Hk2. destruct Hk2 as (f' & E & _). apply Hn. unfold fkey in E.
    apply in_map_iff. exists e'. split; [congruence|assumption].
Qed.

(** The changes of the table have distinct keys if the entries have. *)
Lemma sub_nodup : forall A B (h : A -> list B) (key1 : A -> key) (key2 : B -> key) (l : list A),
  (forall a, h a = [] \/ exists b, h a = [b] /\ key2 b = key1 a) ->
  NoDup (map key1 l) -> NoDup (map key2 (flat_map h l)) /\ incl (map key2 (flat_map h l)) (map key1 l).
Proof.
  intros A B h key1 key2 l H. induction l as [|a r IH]; intros N; [split; [constructor|intros x []]|].
  cbn in N. inversion N as [|? ? Hn N']; subst. destruct (IH N') as [I1 I2]. cbn.
  destruct (H a) as [->|(b & -> & E)]; cbn.
  - split; [assumption|]. intros x Hx. right. now apply I2.
  - split; [constructor; [|assumption]|].
    + rewrite E. intros Hin. apply Hn. now apply I2.
    + rewrite E. intros x [<-|Hx]; [now left|right; now apply I2].
Qed.

Definition flat (g : apientry -> list fdesc) (apis : list apientry) : list (Z * fdesc) :=
  flat_map (fun e => map (pair (ae_api e)) (g e)) apis.

Lemma flat_keys : forall g apis, map (fun af => fkey (fst af) (snd af)) (flat g apis) = keys_of g apis.
Proof.
  intros g apis. unfold flat, keys_of. induction apis as [|e r IH]; [reflexivity|]. cbn. rewrite map_app, IH, map_map. reflexivity.
Qed.

Lemma flat_changes : forall (h : Z -> fdesc -> list change) g apis,
  flat_map (fun e => flat_map (h (ae_api e)) (g e)) apis = flat_map (fun af => h (fst af) (snd af)) (flat g apis).
Proof.
  intros h g apis. unfold flat. induction apis as [|e r IH]; [reflexivity|]. cbn. rewrite flat_map_app, IH. f_equal.
  induction (g e) as [|f l IHl]; [reflexivity|]. cbn. now rewrite IHl.
Qed.

Lemma data_changes_nodup : forall exp input apis, NoDup (keys_of ae_data apis) -> NoDup (map fst (data_changes exp input apis)).
Proof.
  intros exp input apis N. unfold data_changes. rewrite flat_changes. rewrite <- flat_keys in N.
  apply (sub_nodup _ _ _ (fun af : Z * fdesc => fkey (fst af) (snd af))); [|assumption].
  intros [a f]. cbn. unfold gdata. destruct (get_exp_sub _ _ _ _); [|now left]. destruct (exp_desc _ _ _); [|now left]. right. eauto.
Qed.
Lemma iocs_changes_nodup : forall exp input apis, NoDup (keys_of ae_iocs apis) -> NoDup (map fst (iocs_changes exp input apis)).
Proof.
  intros exp input apis N. unfold iocs_changes. rewrite flat_changes. rewrite <- flat_keys in N.
  apply (sub_nodup _ _ _ (fun af : Z * fdesc => fkey (fst af) (snd af))); [|assumption].
  intros [a f]. cbn. unfold giocs. destruct (get_exp_sub _ _ _ _); [|now left]. destruct (exp_desc _ _ _); [|now left]. right. eauto.
Qed.

(** * What is found in the table *)

Lemma in_dec_key : forall (k : key) l, {In k l} + {~ In k l}.
Proof. intros. apply in_dec. intros [[x y] z] [[x' y'] z']. destruct (Z.eq_dec x x'), (Z.eq_dec y y'), (Z.eq_dec z z'); subst; auto; right; congruence. Defined.

(** The value of a key after both runs. *)
Lemma layout_value : forall cap exp p y b, setup_desc cap exp p = Ok (y, b) ->
  NoDup (keys_of ae_data (p_apis p)) -> NoDup (keys_of ae_iocs (p_apis p)) ->
  forall k o, look k (y_desc y) = Some o ->
  exists o1,
    ((o1 = desc0 /\ ~ In k (map fst (data_changes exp (is_input p) (p_apis p)))) \/
     (exists f, In (k, f) (data_changes exp (is_input p) (p_apis p)) /\ o1 = f desc0)) /\
    ((o = o1 /\ ~ In k (map fst (iocs_changes exp (is_input p) (p_apis p)))) \/
     (exists f, In (k, f) (iocs_changes exp (is_input p) (p_apis p)) /\ o = f o1)).
Proof.
  intros cap exp p y b H N1 N2 k o L. pose proof (setup_desc_run cap exp p) as R. rewrite H in R. cbn in R. symmetry in R.
  pose proof (run_look _ _ _ _ R k) as V. rewrite L in V. unfold changes in V. rewrite fold_left_app in V.
  change (look k []) with (@None iodata) in V.
  apply data_changes_nodup with (exp := exp) (input := is_input p) in N1.
  apply iocs_changes_nodup with (exp := exp) (input := is_input p) in N2.
  set (D := data_changes exp (is_input p) (p_apis p)) in *. set (I := iocs_changes exp (is_input p) (p_apis p)) in *.
  assert (X : exists o1, dflt (fold_left (apply1 k) D None) = o1 /\
     ((o1 = desc0 /\ ~ In k (map fst D)) \/ (exists f, In (k, f) D /\ o1 = f desc0))).
  { destruct (in_dec_key k (map fst D)) as [Hin|Hin].
    - apply in_map_iff in Hin. destruct Hin as ([k' f] & E & Hin). cbn in E. subst k'.
      rewrite (fold_apply_one k f D None N1 Hin). cbn. eexists. split; [reflexivity|]. right. eauto.
    - rewrite fold_apply_none by assumption. cbn. exists desc0. auto. }
  destruct X as (o1 & E1 & X). exists o1. split; [assumption|].
  destruct (in_dec_key k (map fst I)) as [Hin|Hin].
  - apply in_map_iff in Hin. destruct Hin as ([k' f] & E & Hin). cbn in E. subst k'.
    rewrite (fold_apply_one k f I _ N2 Hin) in V. rewrite E1 in V. inversion V. right. eauto.
  - rewrite fold_apply_none in V by assumption. left. split; [|assumption]. rewrite <- E1, <- V. reflexivity.
Qed.

Lemma layout_data : forall cap exp p y b k f, setup_desc cap exp p = Ok (y, b) ->
  NoDup (keys_of ae_data (p_apis p)) -> NoDup (keys_of ae_iocs (p_apis p)) ->
  In (k, f) (data_changes exp (is_input p) (p_apis p)) ->
  exists o, In (k, o) (y_desc y) /\ (o = f desc0 \/ exists g, In (k, g) (iocs_changes exp (is_input p) (p_apis p)) /\ o = g (f desc0)).
Proof.
  intros cap exp p y b k f H N1 N2 Hin. pose proof (setup_desc_run cap exp p) as R. rewrite H in R. cbn in R. symmetry in R.
  pose proof (run_look _ _ _ _ R k) as V. unfold changes in V. rewrite fold_left_app in V.
  change (look k []) with (@None iodata) in V.
  apply data_changes_nodup with (exp := exp) (input := is_input p) in N1.
  apply iocs_changes_nodup with (exp := exp) (input := is_input p) in N2.
  rewrite (fold_apply_one k f _ None N1 Hin) in V. cbn [dflt] in V.
  destruct (in_dec_key k (map fst (iocs_changes exp (is_input p) (p_apis p)))) as [Hi|Hi].
  - apply in_map_iff in Hi. destruct Hi as ([k' g] & E & Hi). cbn in E. subst k'.
    rewrite (fold_apply_one k g _ _ N2 Hi) in V. cbn [dflt] in V. apply look_in in V. eauto 10.
  - rewrite fold_apply_none in V by assumption. apply look_in in V. eauto.
Qed.

Lemma layout_iocs : forall cap exp p y b k g, setup_desc cap exp p = Ok (y, b) ->
  NoDup (keys_of ae_iocs (p_apis p)) -> In (k, g) (iocs_changes exp (is_input p) (p_apis p)) ->
  exists o o1, In (k, o) (y_desc y) /\ o = g o1.
Proof.
  intros cap exp p y b k g H N2 Hin. pose proof (setup_desc_run cap exp p) as R. rewrite H in R. cbn in R. symmetry in R.
  pose proof (run_look _ _ _ _ R k) as V. unfold changes in V. rewrite fold_left_app in V.
  apply iocs_changes_nodup with (exp := exp) (input := is_input p) in N2.
  rewrite (fold_apply_one k g _ _ N2 Hin) in V. apply look_in in V. eauto.
Qed.

(** * The sum of the lengths *)

Definition olen (o : iodata) : Z := d_len o + s_len o + k_len o.
Definition total (l : list (key * iodata)) : Z := fold_right Z.add 0 (map (fun e => olen (snd e)) l).

Lemma total_app : forall l m, total (l ++ m) = total l + total m.
Proof. unfold total. induction l as [|a r IH]; intros m; [reflexivity|]. cbn. rewrite IH. lia. Qed.
Lemma total_cons : forall e l, total (e :: l) = olen (snd e) + total l.
Proof. reflexivity. Qed.

Lemma put_desc_total : forall cap k f l before l', look k before = None -> put_desc cap k f before l = Ok l' ->
  total l' = total (before ++ l) + olen (f (dflt (look k l))) - olen (dflt (look k l)).
Proof.
  induction l as [|[k0 d] r IH]; intros before l' Hb H; cbn in H.
  - destruct (cap <=? length before)%nat; [discriminate|]. inversion H; subst; clear H.
    rewrite app_nil_r, total_app, total_cons. cbn [snd look find option_map dflt total map fold_right]. cbn. lia.
  - rewrite look_cons. destruct (keyeqb k0 k) eqn:E.
    + inversion H; subst; clear H. rewrite !total_app, !total_cons. cbn [snd dflt]. lia.
    + rewrite (IH (before ++ [(k0, d)]) l'); [rewrite <- app_assoc; reflexivity| |exact H].
      rewrite look_app, Hb, look_cons, E. reflexivity.
Qed.

Lemma ofold_flat : forall B (h : Z -> fdesc -> B -> outcome B) g apis b,
  ofold (fun e y => ofold (h (ae_api e)) (g e) y) apis b = ofold (fun af y => h (fst af) (snd af) y) (flat g apis) b.
Proof.
  intros B h g. assert (A : forall A0 (k : A0 -> B -> outcome B) l m b, ofold k (l ++ m) b = (do b' <- ofold k l b; ofold k m b')).
  { induction l as [|a r IH]; intros m b; [reflexivity|]. cbn. destruct (k a b); cbn; [apply IH|reflexivity|reflexivity]. }
  induction apis as [|e r IH]; intros b; [reflexivity|]. unfold flat. cbn [flat_map]. fold (flat g r). rewrite A. cbn [ofold].
  assert (E : ofold (h (ae_api e)) (g e) b = ofold (fun af y => h (fst af) (snd af) y) (map (pair (ae_api e)) (g e)) b).
  { clear. revert b. induction (g e) as [|f l IHl]; intros b; [reflexivity|]. cbn. destruct (h (ae_api e) f b); cbn; [apply IHl|reflexivity|reflexivity]. }
  rewrite E. destruct (ofold _ (map _ _) b); cbn; [apply IH|reflexivity|reflexivity].
Qed.

Lemma u16_add : forall a b, u16 (u16 a + b) = u16 (a + b).
Proof. intros. unfold u16. apply Zplus_mod_idemp_l. Qed.

Lemma data_total : forall cap exp L y y',
  NoDup (map (fun af => fkey (fst af) (snd af)) L) ->
  (forall af, In af L -> look (fkey (fst af) (snd af)) (y_desc y) = None) ->
  (forall e, In e (y_desc y) -> k_len (snd e) = 0) ->
  y_in y = u16 (total (y_desc y)) ->
  ofold (fun af y => setup_data1 cap exp true (fst af) (snd af) y) L y = Ok y' ->
  y_in y' = u16 (total (y_desc y')) /\ forall e, In e (y_desc y') -> k_len (snd e) = 0.
Proof.
  induction L as [|[a f] r IH]; intros y y' N D K T H; cbn in H; [inversion H; subst; auto|].
  cbn in N. inversion N as [|? ? Hn N']; subst.
  unfold setup_data1 in H at 1.
  destruct (get_exp_sub exp a (fd_slot f) (fd_subslot f)) as [x|]; cbn [obind] in H.
  2: { eapply IH; [exact N'| |exact K|exact T|exact H]. intros af Haf. apply D. now right. }
  destruct (exp_desc x true true) as [d|]; cbn [obind] in H.
  2: { eapply IH; [exact N'| |exact K|exact T|exact H]. intros af Haf. apply D. now right. }
  destruct (put_desc cap (a, fd_slot f, fd_subslot f) (data_part true x d (fd_offset f)) [] (y_desc y)) as [l| |] eqn:E; try discriminate.
  cbn [obind] in H. pose proof (D (a, f) (or_introl eq_refl)) as D0. cbn [fst snd] in D0. unfold fkey in D0.
  pose proof (put_desc_total _ _ _ _ [] _ eq_refl E) as PT. rewrite D0 in PT. cbn [dflt app] in PT.
  destruct (put_desc_view _ _ _ _ [] _ eq_refl E) as [V _]. cbn [app] in V.
  eapply IH; [exact N'| | | |exact H].
  - intros [a' f'] Haf. rewrite y_desc_add_len, V. rewrite keyeqb_neq; [apply D; now right|].
    intros EQ. apply Hn. apply in_map_iff. exists (a', f'). split; [|assumption]. unfold fkey in *. cbn [fst snd] in *. congruence.
  - intros e He. rewrite y_desc_add_len in He.
    eapply (put_desc_forall cap _ _ (fun o => k_len o = 0) (y_desc y) [] l); [| |intros ? []|exact K|exact E|exact He].
    + intros o Ho. unfold data_part. destruct (_ || _)%bool; destruct (xs_discard x); cbn; assumption.
    + reflexivity.
  - rewrite y_desc_add_len. cbn [add_len y_in]. rewrite desc_of_look, V, keyeqb_refl, D0. cbn [dflt].
    rewrite T, u16_add, PT. f_equal. unfold olen. cbn. lia.
Qed.

Lemma iocs_total : forall cap exp L y b y' b',
  NoDup (map (fun af => fkey (fst af) (snd af)) L) ->
  (forall af, In af L -> k_len (dflt (look (fkey (fst af) (snd af)) (y_desc y))) = 0) ->
  y_in y = u16 (total (y_desc y)) ->
  ofold (fun af y => setup_iocs1 cap exp true (fst af) (snd af) y) L (y, b) = Ok (y', b') ->
  y_in y' = u16 (total (y_desc y')).
Proof.
  induction L as [|[a f] r IH]; intros y b y' b' N D T H; cbn in H; [inversion H; subst; auto|].
  cbn in N. inversion N as [|? ? Hn N']; subst.
  destruct (get_exp_sub exp a (fd_slot f) (fd_subslot f)) as [x|]; cbn [obind] in H.
  2: { eapply IH; [exact N'| |exact T|exact H]. intros af Haf. apply D. now right. }
  destruct (exp_desc x true false) as [d|]; cbn [obind] in H.
  2: { eapply IH; [exact N'| |exact T|exact H]. intros af Haf. apply D. now right. }
  destruct (put_desc cap (a, fd_slot f, fd_subslot f) (iocs_part x d (fd_offset f)) [] (y_desc y)) as [l| |] eqn:E; try discriminate.
  cbn [obind] in H. pose proof (D (a, f) (or_introl eq_refl)) as D0. cbn [fst snd] in D0. unfold fkey in D0.
  pose proof (put_desc_total _ _ _ _ [] _ eq_refl E) as PT. cbn [app] in PT.
  destruct (put_desc_view _ _ _ _ [] _ eq_refl E) as [V _]. cbn [app] in V.
  eapply IH; [exact N'| | |exact H].
  - intros [a' f'] Haf. cbn [y_desc]. rewrite V. rewrite keyeqb_neq; [apply D; now right|].
    intros EQ. apply Hn. apply in_map_iff. exists (a', f'). split; [|assumption]. unfold fkey in *. cbn [fst snd] in *. congruence.
  - cbn [y_desc y_in]. rewrite desc_of_look, V, keyeqb_refl. cbn [dflt].
    rewrite T, u16_add, PT. f_equal. unfold olen, iocs_part.
    destruct (xs_discard x); cbn [d_len s_len k_len]; lia.
Qed.

Lemma layout_total : forall cap exp p y b, setup_desc cap exp p = Ok (y, b) -> is_input p = true ->
  NoDup (keys_of ae_data (p_apis p)) -> NoDup (keys_of ae_iocs (p_apis p)) -> y_in y = u16 (total (y_desc y)).
Proof.
  intros cap exp p y b H I N1 N2. unfold setup_desc in H. rewrite I in H. unfold setup_data, setup_iocs in H.
  rewrite (ofold_flat _ (setup_data1 cap exp true) ae_data) in H.
  destruct (ofold _ (flat ae_data (p_apis p)) _) as [y1| |] eqn:E; try discriminate. cbn [obind] in H.
  rewrite (ofold_flat _ (setup_iocs1 cap exp true) ae_iocs) in H. rewrite <- flat_keys in N1, N2.
  destruct (data_total _ _ _ (mkLayout [] 0 0) _ N1 ltac:(reflexivity) ltac:(intros ? []) eq_refl E) as [T K].
  eapply iocs_total; [exact N2| |exact T|exact H].
  intros af _. destruct (look _ _) as [o|] eqn:L; [|reflexivity]. apply look_in in L. apply (K _ L).
Qed.

(** * Counting bytes *)

Definition bytes (a : area) : list Z := map (fun i => fst a + Z.of_nat i) (seq 0 (Z.to_nat (snd a))).

Lemma in_bytes : forall a b, In b (bytes a) <-> covers a b.
Proof.
  intros [s l] b. unfold bytes, covers. cbn [fst snd]. rewrite in_map_iff. split.
  - intros (i & <- & Hi). apply in_seq in Hi. lia.
  - intros H. exists (Z.to_nat (b - s)). split; [lia|]. apply in_seq. lia.
Qed.
Lemma bytes_length : forall a, 0 <= snd a -> Z.of_nat (length (bytes a)) = snd a.
Proof. intros. unfold bytes. rewrite map_length, seq_length. lia. Qed.
Lemma bytes_nodup : forall a, NoDup (bytes a).
Proof.
  intros. unfold bytes. apply FinFun.Injective_map_NoDup; [|apply seq_NoDup]. intros i j H. lia.
Qed.

Definition all_areas (l : list (key * iodata)) : list area := flat_map (fun e => areas (snd e)) l.

Lemma total_bytes : forall l, (forall a, In a (all_areas l) -> 0 <= snd a) ->
  total l = Z.of_nat (length (flat_map bytes (all_areas l))).
Proof.
  induction l as [|e r IH]; intros H; [reflexivity|]. rewrite total_cons. unfold all_areas. cbn [flat_map]. fold (all_areas r).
  rewrite flat_map_app, app_length, Nat2Z.inj_add, <- IH.
  - f_equal. unfold areas, olen. cbn [flat_map]. rewrite !app_length, !Nat2Z.inj_add. cbn [length].
    assert (A : forall a, In a (areas (snd e)) -> 0 <= snd a).
    { intros a Ha. apply H. unfold all_areas. cbn [flat_map]. apply in_or_app. now left. }
    rewrite !bytes_length.
    + unfold data_area, iops_area, iocs_area. cbn [snd]. lia.
    + apply A. unfold areas. cbn. auto.
    + apply A. unfold areas. cbn. auto.
    + apply A. unfold areas. cbn. auto.
  - intros a Ha. apply H. unfold all_areas. cbn [flat_map]. apply in_or_app. now right.
Qed.

(** Covered bytes are at most the sum. *)
Lemma total_covers : forall l n, (forall a, In a (all_areas l) -> 0 <= snd a) ->
  (forall b, 0 <= b < n -> exists a, In a (all_areas l) /\ covers a b) -> n <= total l.
Proof.
  intros l n H C. rewrite total_bytes by assumption.
  destruct (Z_le_gt_dec n 0); [lia|].
  assert (length (bytes (0%Z, n)) <= length (flat_map bytes (all_areas l)))%nat.
  { apply NoDup_incl_length; [apply bytes_nodup|]. intros b Hb. apply in_bytes in Hb. unfold covers in Hb. cbn in Hb.
    destruct (C b) as (a & H1 & H2); [lia|]. apply in_flat_map. exists a. split; [assumption|]. now apply in_bytes. }
  pose proof (bytes_length (0, n) ltac:(cbn; lia)) as E. cbn [snd] in E. lia.
Qed.

(** Areas that are apart and inside the frame sum up to at most its length. *)
Lemma total_inside : forall l n, 0 <= n -> (forall a, In a (all_areas l) -> inside n a) ->
  ForallOrdPairs apart (all_areas l) -> total l <= n.
Proof.
  intros l n Hn H P. rewrite total_bytes by (intros a Ha; apply (H a Ha)).
  assert (N : NoDup (flat_map bytes (all_areas l))).
  { clear H. induction P as [|a r A P IH]; [constructor|]. cbn. apply NoDup_app_intro; [apply bytes_nodup|assumption|].
    intros b Hb Hb2. apply in_flat_map in Hb2. destruct Hb2 as (a2 & H1 & H2). rewrite Forall_forall in A.
    apply (A a2 H1 b). split; now apply in_bytes. }
  assert (L : (length (flat_map bytes (all_areas l)) <= length (bytes (0%Z, n)))%nat).
  { apply NoDup_incl_length; [assumption|]. intros b Hb. apply in_flat_map in Hb. destruct Hb as (a & H1 & H2).
    apply in_bytes in H2. apply in_bytes. destruct (H a H1) as (I1 & I2 & I3). unfold covers in *. cbn. lia. }
  pose proof (bytes_length (0, n) ltac:(cbn; lia)) as E. cbn [snd] in E. lia.
Qed.
