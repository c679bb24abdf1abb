(** Lemmas about the expected submodules and about the entries of the relations
    of an accepted request. *)
From Coq Require Import List ZArith Arith Bool Lia.
From Verif Require Import Base CpmModel BlockModel ConnModel ConnSpec ConnLemmas.
Import ListNotations.
Local Open Scope Z_scope.

(** * Entries of a relation *)

Definition fplace (f : fdesc) : Z * Z := (fd_slot f, fd_subslot f).

Lemma check_unique_none : forall n L l e,
  fold_left (fun e f => if (count (at_slot (fd_slot f) (fd_subslot f)) L =? 1)%nat then e else e_iocr n) l e = None ->
  e = None /\ forall f, In f l -> count (at_slot (fd_slot f) (fd_subslot f)) L = 1%nat.
Proof.
  induction l as [|f r IH]; intros e H; cbn in H.
  - split; [assumption|]. intros f [].
  - apply IH in H. destruct H as [H1 H2].
    destruct (Nat.eqb_spec (count (at_slot (fd_slot f) (fd_subslot f)) L) 1); [|discriminate].
    split; [assumption|]. intros f' [<-|Hin]; auto.
Qed.

Lemma count_cons : forall A (f : A -> bool) a l, count f (a :: l) = ((if f a then 1 else 0) + count f l)%nat.
Proof. intros. unfold count. cbn. destruct (f a); reflexivity. Qed.

Lemma count_zero : forall A (f : A -> bool) l, count f l = 0%nat <-> forall a, In a l -> f a = false.
Proof.
  induction l as [|a r IH]; [cbn; split; [intros _ ? []|reflexivity]|]. rewrite count_cons. split.
  - intros H b [<-|Hb]; [destruct (f a); [discriminate|reflexivity]|]. apply IH; [lia|assumption].
  - intros H. rewrite (H a) by now left. cbn. apply IH. intros b Hb. apply H. now right.
Qed.

Lemma at_slot_place : forall f g, at_slot (fd_slot f) (fd_subslot f) g = true <-> fplace g = fplace f.
Proof.
  intros f g. unfold at_slot, fplace. rewrite andb_true_iff, !Z.eqb_eq. split; [intros [-> ->]; reflexivity|].
  intros E. inversion E. auto.
Qed.

Lemma unique_nodup : forall l, (forall f, In f l -> count (at_slot (fd_slot f) (fd_subslot f)) l = 1%nat) -> NoDup (map fplace l).
Proof.
  induction l as [|f r IH]; intros H; [constructor|]. cbn. constructor.
  - specialize (H f (or_introl eq_refl)). rewrite count_cons in H.
    rewrite (proj2 (at_slot_place f f) eq_refl) in H. assert (Z0 : count (at_slot (fd_slot f) (fd_subslot f)) r = 0%nat) by lia.
    intros Hin. apply in_map_iff in Hin. destruct Hin as (g & Hg & Hin).
    pose proof (proj1 (count_zero _ _ _) Z0 g Hin) as E. rewrite (proj2 (at_slot_place f g) Hg) in E. discriminate.
  - apply IH. intros g Hg. pose proof (H g (or_intror Hg)) as E. rewrite count_cons in E.
    destruct (at_slot (fd_slot g) (fd_subslot g) f) eqn:Ef; [|assumption]. exfalso.
    assert (Z0 : count (at_slot (fd_slot g) (fd_subslot g)) r = 0%nat) by lia.
    pose proof (proj1 (count_zero _ _ _) Z0 g Hg) as E2. rewrite (proj2 (at_slot_place g g) eq_refl) in E2. discriminate.
Qed.

Lemma fold_data_none : forall x ty l e, fold_left (check_data1 x ty) l e = None ->
  e = None /\ forall f, In f l -> check_data1 x ty None f = None.
Proof.
  induction l as [|f r IH]; intros e H; cbn in H.
  - split; [assumption|]. intros f [].
  - apply IH in H. destruct H as [H1 H2]. assert (e = None) as ->.
    { unfold check_data1 in H1. destruct (last_mod _ _); [|discriminate]. destruct (last_sub _ _); [|discriminate].
      destruct e; [discriminate|reflexivity]. }
    split; [reflexivity|]. intros f' [<-|Hin]; auto.
Qed.

Lemma fold_iocs_none : forall x ty l e, fold_left (check_iocs1 x ty) l e = None ->
  e = None /\ forall f, In f l -> check_iocs1 x ty None f = None.
Proof.
  induction l as [|f r IH]; intros e H; cbn in H.
  - split; [assumption|]. intros f [].
  - apply IH in H. destruct H as [H1 H2]. assert (e = None) as ->.
    { unfold check_iocs1 in H1. destruct (last_mod _ _); [|discriminate]. destruct (last_sub _ _); [|discriminate].
      destruct e; [discriminate|reflexivity]. }
    split; [reflexivity|]. intros f' [<-|Hin]; auto.
Qed.

Lemma check_entry_none : forall exp ty a, check_entry exp ty None a = None ->
  exists x, get_exp_api exp (ae_api a) = Some x /\ ae_data a ++ ae_iocs a <> [] /\
    NoDup (map fplace (ae_data a)) /\ NoDup (map fplace (ae_iocs a)) /\
    (forall f, In f (ae_data a) -> check_data1 x ty None f = None) /\
    (forall f, In f (ae_iocs a) -> check_iocs1 x ty None f = None).
Proof.
  intros exp ty a H. unfold check_entry in H. destruct (get_exp_api _ _) as [x|]; [|discriminate].
  exists x. split; [reflexivity|].
  destruct ((length (ae_data a) =? 0)%nat && (length (ae_iocs a) =? 0)%nat) eqn:El; [discriminate|].
  destruct (passed (fold_left (check_data1 x ty) (ae_data a) (check_unique 23 (ae_data a) None))) eqn:P3.
  2: { rewrite P3 in H. rewrite H in P3. discriminate. }
  destruct (fold_left (check_data1 x ty) (ae_data a) (check_unique 23 (ae_data a) None)) as [e3|] eqn:E3; [discriminate|].
  destruct (check_unique 27 (ae_iocs a) None) as [e4|] eqn:E4; cbn in H; [discriminate|].
  apply fold_data_none in E3. destruct E3 as [E2 E3]. apply check_unique_none in E2, E4.
  apply fold_iocs_none in H. split.
  { destruct (ae_data a) as [|d1 dr]; [|discriminate]. destruct (ae_iocs a); [discriminate El|discriminate]. }
  split; [now apply unique_nodup|]. split; [now apply unique_nodup|]. split; [assumption|apply H].
Qed.

(** * Expected submodules *)

(** [v2] has everything that is plugged in [v1]. *)
Definition grows (v1 v2 : dev) : Prop :=
  (forall a, has_api v1 a = true -> has_api v2 a = true) /\
  (forall a s, has_slot v1 a s = true -> has_slot v2 a s = true) /\
  (forall a s t, has_sub v1 a s t = true -> has_sub v2 a s t = true).

Lemma grows_refl : forall v, grows v v.
Proof. intros. repeat split; auto. Qed.
Lemma grows_trans : forall a b c, grows a b -> grows b c -> grows a c.
Proof. intros a b c (A1 & A2 & A3) (B1 & B2 & B3). split; [auto|split; auto]. Qed.

Lemma assoc_some : forall A k (l : list (Z * A)), (match assoc k l with Some _ => true | None => false end) = existsb (Z.eqb k) (map fst l).
Proof.
  induction l as [|[k' a] r IH]; [reflexivity|]. cbn. rewrite (Z.eqb_sym k k'). destruct (k' =? k); [reflexivity|apply IH].
Qed.

Lemma has_api_fst : forall v a, has_api v a = existsb (Z.eqb a) (map fst (v_apis v)).
Proof. intros. apply assoc_some. Qed.

(** The same APIs. *)
Definition same_apis (v1 v2 : dev) : Prop := map fst (v_apis v1) = map fst (v_apis v2) /\ v_max v1 = v_max v2.

Lemma app_grows : forall app v c, only_plugs app -> grows v (app v c) /\ same_apis v (app v c).
Proof.
  intros app v c H. destruct (H v c) as (H1 & H2 & H3 & H4). repeat split; auto.
  intros a Ha. rewrite has_api_fst in *. now rewrite H1.
Qed.

Lemma exp_subs_none : forall app crs a s mid l before v e v', only_plugs app ->
  exp_subs app crs a s mid before l v e = (v', None) ->
  e = None /\ grows v v' /\ same_apis v v' /\
  (forall l1 x l2, l = l1 ++ x :: l2 -> count (fun y => xs_subslot y =? xs_subslot x) (before ++ l1) = 0%nat) /\
  (forall x, In x l -> uses crs a s (xs_subslot x) <> 0%nat /\ exists v1, grows v1 v' /\ check_sub v1 a s x = None).
Proof.
  induction l as [|x r IH]; intros before v e v' Happ H; cbn in H.
  - inversion H; subst. split; [reflexivity|]. split; [apply grows_refl|]. split; [now split|]. split.
    + intros [|? ?] z l2 E; discriminate.
    + intros x [].
  - set (v1 := if has_sub v a s (xs_subslot x) then v else _) in H.
    assert (G1 : grows v v1 /\ same_apis v v1).
    { unfold v1. destruct (has_sub v a s (xs_subslot x)); [split; [apply grows_refl|now split]|].
      destruct (exp_data (xs_descs x) 0 0 0) as [[dir i] o]. now apply app_grows. }
    clearbody v1. apply (IH _ _ _ _ Happ) in H. destruct H as (H1 & H2 & H3 & H4 & H5).
    destruct e as [e|]; [discriminate H1|]. cbn [passed] in H1.
    destruct (Nat.eqb_spec (count (fun y => xs_subslot y =? xs_subslot x) before) 0) as [Hc|Hc]; cbn [negb andb passed] in H1.
    2: { cbn in H1. discriminate. }
    destruct (Nat.eqb_spec (uses crs a s (xs_subslot x)) 0) as [Hu|Hu]; cbn [andb passed e_exp] in H1; [discriminate|].
    split; [reflexivity|]. destruct G1 as [G1 G2]. split; [eapply grows_trans; eassumption|].
    split; [destruct G2, H3; split; congruence|]. split.
    + intros [|y l1] x' l2 E; cbn in E; inversion E; subst; [now rewrite app_nil_r|].
      specialize (H4 l1 x' l2 eq_refl). now rewrite <- app_assoc in H4.
    + intros x' [<-|Hin]; [|now apply H5]. split; [assumption|]. exists v1. auto.
Qed.

Lemma exp_mods_some : forall app crs a l before v e, snd (exp_mods app crs a before l v (Some e)) <> None.
Proof. induction l as [|m r IH]; intros before v e; cbn; [discriminate|apply IH]. Qed.

Lemma exp_mods_none : forall app crs a l before v e v', only_plugs app ->
  exp_mods app crs a before l v e = (v', None) ->
  e = None /\ grows v v' /\ same_apis v v' /\
  (forall l1 m l2, l = l1 ++ m :: l2 -> count (fun y => xm_slot y =? xm_slot m) (before ++ l1) = 0%nat) /\
  (forall m, In m l -> has_slot v' a (xm_slot m) = true /\ xm_slot m <= 32767 /\ xm_ident m <> 0 /\ xm_subs m <> [] /\
    exists v1 v2, grows v2 v' /\ exp_subs app crs a (xm_slot m) (xm_ident m) [] (xm_subs m) v1 None = (v2, None)).
Proof.
  induction l as [|m r IH]; intros before v e v' Happ H; cbn in H.
  - inversion H; subst. split; [reflexivity|]. split; [apply grows_refl|]. split; [now split|]. split.
    + intros [|? ?] z l2 E; discriminate.
    + intros x [].
  - destruct e as [e|].
    { exfalso. apply (f_equal snd) in H. now apply exp_mods_some in H. }
    split; [reflexivity|].
    set (v1 := if has_slot v a (xm_slot m) then v else _) in H.
    assert (G1 : grows v v1 /\ same_apis v v1).
    { unfold v1. destruct (has_slot v a (xm_slot m)); [split; [apply grows_refl|now split]|]. now apply app_grows. }
    clearbody v1. destruct G1 as [G1 G2].
    destruct (Nat.eqb_spec (count (fun y => xm_slot y =? xm_slot m) before) 0) as [Hc|Hc].
    2: { exfalso. apply (f_equal snd) in H. now apply exp_mods_some in H. }
    destruct (Z.ltb_spec 32767 (xm_slot m)); [exfalso; apply (f_equal snd) in H; now apply exp_mods_some in H|].
    destruct (has_slot v1 a (xm_slot m)) eqn:Hs; cbn [negb] in H; [|exfalso; apply (f_equal snd) in H; now apply exp_mods_some in H].
    destruct (Z.eqb_spec (xm_ident m) 0); [exfalso; apply (f_equal snd) in H; now apply exp_mods_some in H|].
    destruct (Nat.eqb_spec (length (xm_subs m)) 0); [exfalso; apply (f_equal snd) in H; now apply exp_mods_some in H|].
    destruct (exp_subs app crs a (xm_slot m) (xm_ident m) [] (xm_subs m) v1 None) as [v2 e2] eqn:Es.
    apply (IH _ _ _ _ Happ) in H. destruct H as (-> & H2 & H3 & H4 & H5).
    destruct (exp_subs_none _ _ _ _ _ _ _ _ _ _ Happ Es) as (_ & S2 & S3 & _ & _).
    split; [eapply grows_trans; [exact G1|eapply grows_trans; eassumption]|].
    split; [destruct G2, H3, S3; split; congruence|]. split.
    + intros [|y l1] x' l2 E; cbn in E; inversion E; subst; [now rewrite app_nil_r|].
      specialize (H4 l1 x' l2 eq_refl). now rewrite <- app_assoc in H4.
    + intros x' [<-|Hin]; [|now apply H5].
      split; [apply H2, S2, Hs|]. do 2 (split; [assumption|]). split; [intros E0; rewrite E0 in *; now cbn in *|]. exists v1, v2. auto.
Qed.

Lemma counts_nodup : forall A (f : A -> Z) l before,
  (forall l1 x l2, l = l1 ++ x :: l2 -> count (fun y => f y =? f x) (before ++ l1) = 0%nat) ->
  NoDup (map f l) /\ forall x y, In x l -> In y before -> f y <> f x.
Proof.
  induction l as [|x r IH]; intros before H; [split; [constructor|intros x y []]|].
  assert (H0 : count (fun y => f y =? f x) before = 0%nat) by (specialize (H [] x r eq_refl); now rewrite app_nil_r in H).
  destruct (IH (before ++ [x])) as [N D].
  { intros l1 y l2 ->. specialize (H (x :: l1) y l2 eq_refl). now rewrite <- app_assoc. }
  split.
  - cbn. constructor; [|assumption]. intros Hin. apply in_map_iff in Hin. destruct Hin as (y & Hy & Hin).
    apply (D y x Hin); [apply in_or_app; right; now left|congruence].
  - intros y z [<-|Hy] Hz.
    + pose proof (proj1 (count_zero _ _ _) H0 z Hz) as E. now apply Z.eqb_neq in E.
    + apply D; [assumption|apply in_or_app; now left].
Qed.

Lemma uses_entry : forall crs a s t, uses crs a s t <> 0%nat ->
  exists p off, In p crs /\ (data_entry p a s t off \/ iocs_entry p a s t off).
Proof.
  intros crs a s t. unfold uses. induction crs as [|p r IH]; cbn; [congruence|]. intros H.
  destruct (Nat.eq_dec (fold_right plus 0%nat (map (fun e => if ae_api e =? a
    then (count (at_slot s t) (ae_data e) + count (at_slot s t) (ae_iocs e))%nat else 0%nat) (p_apis p))) 0) as [E|E].
  - rewrite E in H. destruct (IH H) as (p' & off & H1 & H2). exists p', off. split; [now right|assumption].
  - clear H IH.
    assert (G : exists e off, In e (p_apis p) /\ ae_api e = a /\ (In (mkFdesc s t off) (ae_data e) \/ In (mkFdesc s t off) (ae_iocs e))).
    { revert E. induction (p_apis p) as [|e l IHl]; cbn; [congruence|]. intros H.
      destruct (Z.eqb_spec (ae_api e) a) as [Ha|Ha].
      - assert (C : forall L, count (at_slot s t) L <> 0%nat -> exists off, In (mkFdesc s t off) L).
        { induction L as [|f L IHL]; [cbn; congruence|]. rewrite count_cons. destruct (at_slot s t f) eqn:Ef.
          - intros _. unfold at_slot in Ef. rewrite andb_true_iff, !Z.eqb_eq in Ef. destruct Ef as [<- <-].
            exists (fd_offset f). left. now destruct f.
          - cbn. intros HL. destruct (IHL HL) as [off Ho]. exists off. now right. }
        destruct (Nat.eq_dec (count (at_slot s t) (ae_data e)) 0) as [Ed|Ed].
        + destruct (Nat.eq_dec (count (at_slot s t) (ae_iocs e)) 0) as [Ei|Ei].
          * rewrite Ed, Ei in H. cbn in H. destruct (IHl H) as (e' & off & H1 & H2). exists e', off. split; [now right|assumption].
          * destruct (C _ Ei) as [off Ho]. exists e, off. split; [now left|]. tauto.
        + destruct (C _ Ed) as [off Ho]. exists e, off. split; [now left|]. tauto.
      - cbn in H. destruct (IHl H) as (e' & off & H1 & H2). exists e', off. split; [now right|assumption]. }
    destruct G as (e & off & G1 & G2 & G3). exists p, off. split; [now left|].
    unfold data_entry, iocs_entry. destruct G3; [left|right]; exists e; auto.
Qed.

Lemma descs_fit_ok : forall x, 0 <= xs_type x <= 3 -> descs_fit x = true -> (forall d, In d (xs_descs x) -> check_ddesc (xs_type x) d = None) -> descs_ok x.
Proof.
  intros x R H D. unfold descs_fit in H. apply negb_true_iff in H.
  apply orb_false_iff in H. destruct H as [H H3]. apply orb_false_iff in H. destruct H as [H1 H2].
  unfold is_dir in *. unfold descs_ok.
  assert (C : xs_type x = 0 \/ xs_type x = 1 \/ xs_type x = 2 \/ xs_type x = 3) by lia.
  destruct C as [C|[C|[C|C]]]; rewrite C in *; cbn [Z.eqb Pos.eqb orb andb] in H1, H2, H3.
  - left. split; [reflexivity|]. destruct (xs_descs x) as [|d [|d' l]]; cbn in H1; try discriminate.
    apply negb_false_iff, Z.eqb_eq in H1. exists d. split; [reflexivity|]. split; [assumption|].
    specialize (D d (or_introl eq_refl)). unfold check_ddesc, is_dir in D. rewrite H1 in D. cbn in D.
    destruct (Z.eqb_spec (dd_len d) 0); [assumption|]. destruct (1439 <? dd_len d); cbn in D; discriminate.
  - right; left. split; [reflexivity|]. destruct (xs_descs x) as [|d [|d' l]]; cbn in H1; try discriminate.
    apply negb_false_iff, Z.eqb_eq in H1. now exists d.
  - right; right; left. split; [reflexivity|]. destruct (xs_descs x) as [|d [|d' l]]; cbn in H2; try discriminate.
    apply negb_false_iff, Z.eqb_eq in H2. now exists d.
  - right; right; right. split; [reflexivity|].
    destruct (xs_descs x) as [|d1 [|d2 [|d3 l]]]; cbn in H3; try discriminate. apply negb_false_iff in H3.
    rewrite andb_true_iff, !orb_true_iff, !Z.eqb_eq in H3. destruct H3 as [[E|E] [E'|E']]; try lia.
    + exists d1, d2. auto.
    + exists d2, d1. auto.
Qed.

Lemma check_ddesc_none : forall ty d, check_ddesc ty d = None -> dd_len d <= 1439 /\ dd_iops d = 1 /\ dd_iocs d = 1.
Proof.
  intros ty d H. unfold check_ddesc in H.
  repeat match type of H with (if ?c then _ else _) = None => let E := fresh in destruct c eqn:E; [discriminate H|] end.
  repeat match goal with E : (_ || _)%bool = false |- _ => apply orb_false_iff in E; destruct E end.
  repeat match goal with E : negb _ = false |- _ => apply negb_false_iff in E; try rewrite Z.eqb_eq in E end.
  match goal with E : (1439 <? _) = false |- _ => apply Z.ltb_ge in E end. auto.
Qed.

Lemma check_sub_ok : forall v v' crs a s x, 0 <= xs_type x <= 3 -> uses crs a s (xs_subslot x) <> 0%nat -> grows v v' ->
  check_sub v a s x = None -> sub_ok v' crs a s x.
Proof.
  intros v v' crs a s x R U G H. unfold check_sub in H.
  destruct (Z.ltb_spec 40959 (xs_subslot x)); [discriminate|].
  destruct (has_sub v a s (xs_subslot x)) eqn:Hs; [|discriminate]. cbn [negb] in H.
  destruct ((32768 <=? xs_subslot x) && negb (a =? 0)) eqn:Ha; [discriminate|].
  destruct (descs_fit x) eqn:Hf; [|discriminate]. cbn [negb] in H.
  destruct ((xs_type x =? 2) && xs_shared x); [discriminate|].
  destruct (xs_redin x && _); [discriminate|]. destruct (xs_redout x && _); [discriminate|]. destruct (xs_discard x && _); [discriminate|].
  apply fold_later_none in H. destruct H as [_ H].
  unfold sub_ok. split; [now apply G|]. split; [assumption|]. split.
  { intros Hle. rewrite (proj2 (Z.leb_le _ _) Hle) in Ha. cbn in Ha. apply negb_false_iff in Ha. now apply Z.eqb_eq. }
  split; [now apply uses_entry|]. split; [now apply descs_fit_ok|]. intros d Hd. now apply (check_ddesc_none (xs_type x)), H.
Qed.

Lemma sub_ok_grows : forall v v' crs a s x, grows v v' -> sub_ok v crs a s x -> sub_ok v' crs a s x.
Proof. intros v v' crs a s x G (H & H'). split; [now apply G|exact H']. Qed.
Lemma mod_ok_grows : forall v v' crs a m, grows v v' -> mod_ok v crs a m -> mod_ok v' crs a m.
Proof.
  intros v v' crs a m G (H1 & H2 & H3 & H4 & H5 & H6). split; [now apply G|]. do 4 (split; [assumption|]).
  intros x Hx. eapply sub_ok_grows; eauto.
Qed.
Lemma api_ok_grows : forall v v' crs x, grows v v' -> api_ok v crs x -> api_ok v' crs x.
Proof. intros v v' crs x G (H1 & H2). split; [assumption|]. intros m Hm. eapply mod_ok_grows; eauto. Qed.

Lemma exp_mods_ok : forall app crs x v v', only_plugs app ->
  (forall m s, In m (xa_mods x) -> In s (xm_subs m) -> 0 <= xs_type s <= 3) ->
  exp_mods app crs (xa_api x) [] (xa_mods x) v None = (v', None) -> api_ok v' crs x.
Proof.
  intros app crs x v v' Happ R H. destruct (exp_mods_none _ _ _ _ _ _ _ _ Happ H) as (_ & _ & _ & H4 & H5).
  split; [now apply (counts_nodup _ _ _ [])|]. intros m Hm. destruct (H5 m Hm) as (A1 & A2 & A3 & A4 & v1 & v2 & G & E).
  destruct (exp_subs_none _ _ _ _ _ _ _ _ _ _ Happ E) as (_ & _ & _ & E4 & E5).
  unfold mod_ok. do 4 (split; [assumption|]). split; [now apply (counts_nodup _ _ _ [])|].
  intros s Hs. destruct (E5 s Hs) as (U & v0 & G0 & C). eapply check_sub_ok; [eauto|exact U| |exact C].
  eapply grows_trans; eassumption.
Qed.

Lemma exp_apis_some : forall app crs l v e, snd (exp_apis app crs l v (Some e)) <> None.
Proof. induction l as [|m r IH]; intros v e; cbn; [discriminate|apply IH]. Qed.

Lemma assoc_app : forall A k (l m : list (Z * A)), assoc k (l ++ m) = match assoc k l with Some a => Some a | None => assoc k m end.
Proof. induction l as [|[k' a] r IH]; intros m; [reflexivity|]. cbn. destruct (k' =? k); [reflexivity|apply IH]. Qed.

Lemma new_api_grows : forall v a v', new_api v a = Some v' -> grows v v' /\ has_api v' a = true.
Proof.
  intros v a v' H. unfold new_api in H. destruct (has_api v a) eqn:E; [discriminate|].
  destruct (_ <? _)%nat; [|discriminate]. inversion H; subst. unfold grows, has_api, has_slot, has_sub, slots_of in *. cbn [v_apis].
  split; [split; [|split]|].
  - intros b. rewrite assoc_app. destruct (assoc b (v_apis v)); [auto|discriminate].
  - intros b s. rewrite assoc_app. destruct (assoc b (v_apis v)); [auto|discriminate].
  - intros b s t. rewrite assoc_app. destruct (assoc b (v_apis v)); [auto|discriminate].
  - rewrite assoc_app. destruct (assoc a (v_apis v)); [discriminate|]. cbn. now rewrite Z.eqb_refl.
Qed.

Definition missing (v : dev) (l : list xapi) : nat := length (filter (fun x => negb (has_api v (xa_api x))) l).

Lemma missing_le : forall v v' l, (forall a, has_api v a = true -> has_api v' a = true) -> (missing v' l <= missing v l)%nat.
Proof.
  intros v v' l H. unfold missing. induction l as [|x r IH]; [cbn; lia|]. cbn.
  destruct (has_api v (xa_api x)) eqn:E; [rewrite (H _ E); cbn; exact IH|].
  destruct (has_api v' (xa_api x)); cbn; lia.
Qed.

Lemma exp_apis_none : forall app crs l v e v', only_plugs app ->
  (forall x m s, In x l -> In m (xa_mods x) -> In s (xm_subs m) -> 0 <= xs_type s <= 3) ->
  (length (v_apis v) + missing v l <= v_max v)%nat ->
  exp_apis app crs l v e = (v', None) -> e = None /\ grows v v' /\ forall x, In x l -> api_ok v' crs x.
Proof.
  induction l as [|x r IH]; intros v e v' Happ R Hroom H; cbn in H.
  - inversion H; subst. split; [reflexivity|]. split; [apply grows_refl|]. intros x [].
  - destruct e as [e|]; [exfalso; apply (f_equal snd) in H; now apply exp_apis_some in H|]. split; [reflexivity|].
    assert (V1 : exists v1, (if has_api v (xa_api x) then Some v else new_api v (xa_api x)) = Some v1 /\ grows v v1 /\
      (length (v_apis v1) + missing v1 r <= v_max v1)%nat).
    { unfold missing in Hroom. cbn in Hroom. destruct (has_api v (xa_api x)) eqn:E.
      - exists v. split; [reflexivity|]. split; [apply grows_refl|]. exact Hroom.
      - cbn in Hroom. assert (Hn : exists v1, new_api v (xa_api x) = Some v1 /\ v1 = mkDev (v_apis v ++ [(xa_api x, [])]) (v_max v)).
        { unfold new_api. rewrite E. destruct (Nat.ltb_spec (length (v_apis v)) (v_max v)); [eauto|lia]. }
        destruct Hn as (v1 & Hn & Hv). exists v1. split; [exact Hn|]. destruct (new_api_grows _ _ _ Hn) as [G _]. split; [exact G|].
        pose proof (missing_le v v1 r (proj1 G)) as M. subst v1. cbn [v_apis v_max] in *. rewrite app_length. cbn [length].
        unfold missing in *. lia. }
    destruct V1 as (v1 & E1 & G1 & R1). rewrite E1 in H.
    destruct (exp_mods app crs (xa_api x) [] (xa_mods x) v1 None) as [v2 e2] eqn:Em.
    destruct e2 as [e2|]; [exfalso; apply (f_equal snd) in H; now apply exp_apis_some in H|].
    destruct (exp_mods_none _ _ _ _ _ _ _ _ Happ Em) as (_ & G2 & [S1 S2] & _ & _).
    assert (R2 : (length (v_apis v2) + missing v2 r <= v_max v2)%nat).
    { pose proof (missing_le v1 v2 r (proj1 G2)). rewrite <- S2. apply (f_equal (@length Z)) in S1. rewrite !map_length in S1. lia. }
    apply (IH _ _ _ Happ) in H; [|intros; eapply R; eauto; now right|exact R2]. destruct H as (_ & G3 & H).
    split; [eapply grows_trans; [exact G1|eapply grows_trans; eassumption]|].
    intros x' [<-|Hin]; [|now apply H]. eapply api_ok_grows; [exact G3|]. eapply exp_mods_ok; [exact Happ| |exact Em].
    intros. eapply R; eauto. now left.
Qed.

Lemma accepted_expected : forall mdi cap app q v v' ys, wf q -> only_plugs app -> room q v ->
  check_apdu mdi cap app q v = Ok (v', Accepted ys) -> forall x, In x (q_exp q) -> api_ok v' (q_crs q) x.
Proof.
  intros mdi cap app q v v' ys (_ & _ & W) Happ R H. apply check_apdu_accepted in H. destruct H as (_ & _ & H & _).
  unfold exp_configure in H. destruct (_ && _)%bool; [discriminate|].
  apply exp_apis_none in H; [apply H|assumption|intros; eapply W; eauto|exact R].
Qed.

(** ** Numbers that occur once *)

Lemma find_unique : forall A (f : A -> Z) k l x, NoDup (map f l) -> In x l -> f x = k -> find (fun y => f y =? k) l = Some x.
Proof.
  induction l as [|y r IH]; intros x N Hin Hk; [destruct Hin|]. cbn in N. inversion N as [|? ? Hn N']; subst. cbn.
  destruct Hin as [->|Hin]; [now rewrite Z.eqb_refl|].
  destruct (Z.eqb_spec (f y) (f x)) as [E|E]; [|now apply IH]. exfalso. apply Hn. rewrite E. now apply in_map.
Qed.

Lemma find_rev_unique : forall A (f : A -> Z) k l x, NoDup (map f l) -> find (fun y => f y =? k) (rev l) = Some x -> find (fun y => f y =? k) l = Some x.
Proof.
  intros A f k l x N H. apply find_some in H. destruct H as [H1 H2]. apply in_rev in H1. apply Z.eqb_eq in H2. now apply find_unique.
Qed.

(** In an accepted request, the submodule of an entry is the one expected. *)
Lemma last_is_first : forall exp a xa s t m u v crs, get_exp_api exp a = Some xa -> api_ok v crs xa ->
  last_mod xa s = Some m -> last_sub m t = Some u -> get_exp_sub exp a s t = Some u.
Proof.
  intros exp a xa s t m u v crs H1 (N & O) H2 H3. unfold get_exp_sub, get_exp_mod. rewrite H1.
  unfold last_mod in H2. apply find_rev_unique in H2; [|assumption]. rewrite H2.
  apply find_some in H2. destruct H2 as [H2 _]. destruct (O m H2) as (_ & _ & _ & _ & N2 & _).
  unfold last_sub in H3. now apply find_rev_unique in H3.
Qed.
