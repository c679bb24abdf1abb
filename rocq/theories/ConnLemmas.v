(** Lemmas about the model of connect requests: the checks one by one, and the
    table of descriptors. *)
From Coq Require Import List ZArith Arith Bool Lia.
From Verif Require Import Base CpmModel BlockModel ConnModel ConnSpec.
Import ListNotations.
Local Open Scope Z_scope.

(** * Checks that continue after an error *)

Lemma later_none : forall a b, later a b = None -> a = None /\ b = None.
Proof. intros a [b|] H; cbn in H; [discriminate|now split]. Qed.

Lemma check_crs_none : forall mdi g l e, check_crs mdi g l e = None ->
  e = None /\ forall p, In p l -> check_cr mdi g p = None.
Proof.
  induction l as [|p r IH]; intros e H; cbn in H.
  - split; [assumption|]. intros p [].
  - apply IH in H. destruct H as [H1 H2]. apply later_none in H1. destruct H1 as [H1 H3].
    split; [assumption|]. intros p' [->|Hin]; [assumption|now apply H2].
Qed.

Lemma check_crs_conv : forall mdi g l, (forall p, In p l -> check_cr mdi g p = None) -> check_crs mdi g l None = None.
Proof.
  induction l as [|p r IH]; intros H; [reflexivity|]. cbn. rewrite (H p) by now left. cbn.
  apply IH. intros p' Hin. apply H. now right.
Qed.

Lemma fold_later_none : forall A (f : A -> chk) l e, fold_left (fun e d => later e (f d)) l e = None ->
  e = None /\ forall d, In d l -> f d = None.
Proof.
  induction l as [|p r IH]; intros e H; cbn in H.
  - split; [assumption|]. intros p [].
  - apply IH in H. destruct H as [H1 H2]. apply later_none in H1. destruct H1 as [H1 H3].
    split; [assumption|]. intros p' [->|Hin]; [assumption|now apply H2].
Qed.

Lemma check_descs_some : forall sdu l before e, check_descs sdu before l (Some e) <> None.
Proof.
  induction l as [|[k o] r IH]; intros before e; cbn; [discriminate|apply IH].
Qed.

Lemma check_descs_none : forall sdu l before e, check_descs sdu before l e = None ->
  e = None /\ forall l1 k o l2, l = l1 ++ (k, o) :: l2 ->
    (d_off o + d_len o <= sdu /\ s_off o + s_len o <= sdu /\ k_off o + k_len o <= sdu) /\
    check_overlap (before ++ l1) o = None.
Proof.
  induction l as [|[k0 o0] r IH]; intros before e H; cbn in H.
  - split; [assumption|]. intros [|] k o l2 E; discriminate.
  - destruct e as [e|]; [now apply check_descs_some in H|]. split; [reflexivity|].
    destruct (Z.ltb_spec sdu (d_off o0 + d_len o0)); [now apply check_descs_some in H|].
    destruct (Z.ltb_spec sdu (s_off o0 + s_len o0)); [now apply check_descs_some in H|].
    destruct (Z.ltb_spec sdu (k_off o0 + k_len o0)); [now apply check_descs_some in H|].
    apply IH in H. destruct H as [H3 H4].
    intros [|[k1 o1] l1] k o l2 E; cbn in E; inversion E; subst; clear E.
    + rewrite app_nil_r. auto.
    + destruct (H4 l1 k o l2 eq_refl) as [Ha Hb]. split; [assumption|].
      now rewrite <- app_assoc in Hb.
Qed.

(** * Overlap *)

Lemma no_straddle_apart : forall s1 l1 s2 l2, no_straddle s1 l1 s2 l2 = true -> apart (s1, l1) (s2, l2).
Proof.
  intros s1 l1 s2 l2 H b [H1 H2]. unfold covers in H1, H2; cbn in H1, H2. unfold no_straddle in H.
  destruct (Z.ltb_spec 0 l1); [|lia]. destruct (Z.ltb_spec 0 l2); [|lia]. cbn in H.
  destruct (Z.leb_spec s1 s2).
  - destruct (Z.ltb_spec s2 (s1 + l1)); [discriminate|lia].
  - destruct (Z.ltb_spec s1 (s2 + l2)); [discriminate|lia].
Qed.

Lemma apart_sym : forall a b, apart a b -> apart b a.
Proof. intros a b H x [H1 H2]. apply (H x). now split. Qed.

Lemma clear_of_apart : forall s l o, clear_of s l o = true -> forall a, In a (areas o) -> apart (s, l) a.
Proof.
  intros s l o H a Hin. unfold clear_of in H. destruct (Z.ltb_spec 0 l).
  - apply andb_prop in H. destruct H as [H H3]. apply andb_prop in H. destruct H as [H1 H2].
    unfold areas, data_area, iops_area, iocs_area in Hin. cbn in Hin.
    destruct Hin as [<-|[<-|[<-|[]]]]; now apply no_straddle_apart.
  - intros b [H1 _]. unfold covers in H1; cbn in H1. lia.
Qed.

Lemma check_overlap_apart : forall before o, check_overlap before o = None ->
  forall k o', In (k, o') before -> forall a1 a2, In a1 (areas o) -> In a2 (areas o') -> apart a1 a2.
Proof.
  intros before o H k o' Hin a1 a2 H1 H2. unfold check_overlap in H.
  destruct (forallb _ before) eqn:E1 in H; [|discriminate].
  cbn [negb] in H. destruct (forallb (fun e => clear_of (k_off o) _ _) before) eqn:E2 in H; [|discriminate].
  rewrite forallb_forall in E1, E2. specialize (E1 _ Hin). specialize (E2 _ Hin). cbn [snd] in E1, E2.
  apply andb_prop in E1. destruct E1 as [E1 E3].
  unfold areas, data_area, iops_area, iocs_area in H1. cbn in H1.
  destruct H1 as [<-|[<-|[<-|[]]]]; eapply clear_of_apart; eassumption.
Qed.

(** * Keys *)

Lemma keyeqb_eq : forall a b, keyeqb a b = true <-> a = b.
Proof.
  intros [[x y] z] [[x' y'] z']. unfold keyeqb. rewrite !andb_true_iff, !Z.eqb_eq. split.
  - intros [[-> ->] ->]. reflexivity.
  - intros E. inversion E. auto.
Qed.
Lemma keyeqb_refl : forall a, keyeqb a a = true.
Proof. intros. now apply keyeqb_eq. Qed.
Lemma keyeqb_neq : forall a b, a <> b -> keyeqb a b = false.
Proof. intros a b H. destruct (keyeqb a b) eqn:E; [|reflexivity]. now apply keyeqb_eq in E. Qed.

Definition look (k : key) (l : list (key * iodata)) : option iodata :=
  option_map snd (find (fun e => keyeqb (fst e) k) l).
Definition dflt (o : option iodata) : iodata := match o with Some d => d | None => desc0 end.

Lemma look_cons : forall k k' o l, look k ((k', o) :: l) = if keyeqb k' k then Some o else look k l.
Proof. intros. unfold look. cbn. destruct (keyeqb k' k); reflexivity. Qed.

Lemma look_app : forall k l1 l2, look k (l1 ++ l2) = match look k l1 with Some o => Some o | None => look k l2 end.
Proof.
  induction l1 as [|[k' o] r IH]; intros l2; [reflexivity|].
  cbn [app]. rewrite !look_cons. destruct (keyeqb k' k); [reflexivity|apply IH].
Qed.

Lemma look_none : forall k l, look k l = None <-> ~ In k (map fst l).
Proof.
  induction l as [|[k' o] r IH]; [cbn; tauto|]. rewrite look_cons. cbn.
  destruct (keyeqb k' k) eqn:E.
  - apply keyeqb_eq in E. split; [discriminate|]. intros H. exfalso. apply H. now left.
  - rewrite IH. split; [|tauto]. intros H [H1|H1]; [|tauto]. subst. rewrite keyeqb_refl in E. discriminate.
Qed.

Lemma look_in : forall k l o, look k l = Some o -> In (k, o) l.
Proof.
  induction l as [|[k' o'] r IH]; intros o H; [discriminate|]. rewrite look_cons in H.
  destruct (keyeqb k' k) eqn:E.
  - apply keyeqb_eq in E. inversion H; subst. now left.
  - right. now apply IH.
Qed.

Lemma in_look : forall k l o, NoDup (map fst l) -> In (k, o) l -> look k l = Some o.
Proof.
  induction l as [|[k' o'] r IH]; intros o N H; [destruct H|]. rewrite look_cons.
  cbn in N. inversion N as [|? ? Hn N']; subst. destruct H as [H|H].
  - inversion H; subst. now rewrite keyeqb_refl.
  - rewrite keyeqb_neq; [now apply IH|]. intros ->. apply Hn. change k with (fst (k, o)). now apply in_map.
Qed.

Lemma desc_of_look : forall k l, desc_of k l = dflt (look k l).
Proof. intros. unfold desc_of, look. destruct (find _ l) as [[? ?]|]; reflexivity. Qed.

(** * The table of descriptors *)

Lemma put_desc_view : forall cap k f l before l', look k before = None -> put_desc cap k f before l = Ok l' ->
  (forall k', look k' l' = if keyeqb k k' then Some (f (dflt (look k' (before ++ l)))) else look k' (before ++ l)) /\
  map fst l' = map fst (before ++ l) ++ match look k (before ++ l) with Some _ => [] | None => [k] end.
Proof.
  induction l as [|[k0 d] r IH]; intros before l' Hb H; cbn in H.
  - destruct (cap <=? length before)%nat; [discriminate|]. inversion H; subst; clear H. rewrite app_nil_r, Hb.
    split; [|now rewrite map_app]. intros k'. rewrite look_app, look_cons. cbn.
    destruct (keyeqb k k') eqn:E.
    + apply keyeqb_eq in E. subst. now rewrite Hb.
    + now destruct (look k' before).
  - destruct (keyeqb k0 k) eqn:E.
    + apply keyeqb_eq in E. subst. inversion H; subst; clear H. split.
      * intros k'. rewrite !look_app, !look_cons. destruct (keyeqb k k') eqn:E.
        -- apply keyeqb_eq in E. subst. now rewrite Hb.
        -- reflexivity.
      * rewrite look_app, Hb, look_cons, keyeqb_refl, app_nil_r, !map_app. reflexivity.
    + apply IH in H.
      * rewrite <- app_assoc in H. exact H.
      * rewrite look_app, Hb, look_cons, E. reflexivity.
Qed.

Lemma put_desc_ok : forall cap k f l before, look k before = None ->
  (look k l = None -> (length (before ++ l) < cap)%nat) -> exists l', put_desc cap k f before l = Ok l'.
Proof.
  induction l as [|[k0 d] r IH]; intros before Hb H; cbn.
  - rewrite app_nil_r in H. specialize (H eq_refl).
    destruct (Nat.leb_spec cap (length before)); [lia|]. eauto.
  - destruct (keyeqb k0 k) eqn:E; [eauto|]. apply IH.
    + rewrite look_app, Hb, look_cons, E. reflexivity.
    + intros Hr. rewrite <- app_assoc. apply H. now rewrite look_cons, E.
Qed.

(** Entries of a table change: all have a property if new and changed ones do. *)
Lemma put_desc_forall : forall cap k f (P : iodata -> Prop) l before l',
  (forall o, P o -> P (f o)) -> P desc0 ->
  (forall e, In e before -> P (snd e)) -> (forall e, In e l -> P (snd e)) ->
  put_desc cap k f before l = Ok l' -> forall e, In e l' -> P (snd e).
Proof.
  induction l as [|[k0 d] r IH]; intros before l' Hf H0 Hb Hl H e He; cbn in H.
  - destruct (cap <=? length before)%nat; [discriminate|]. inversion H; subst; clear H.
    apply in_app_or in He. destruct He as [He|[<-|[]]]; [now apply Hb|]. cbn. now apply Hf.
  - destruct (keyeqb k0 k) eqn:E.
    + inversion H; subst; clear H. apply in_app_or in He. destruct He as [He|[<-|He]].
      * now apply Hb.
      * cbn. apply Hf. apply (Hl (k0, d)). now left.
      * apply Hl. now right.
    + apply (IH _ _ Hf H0) with (e := e) in H; [assumption| | |assumption].
      * intros e' He'. apply in_app_or in He'. destruct He' as [He'|[<-|[]]]; [now apply Hb|]. apply Hl. now left.
      * intros e' He'. apply Hl. now right.
Qed.

(** ** Runs of table updates *)

Definition change := (key * (iodata -> iodata))%type.
Fixpoint run (cap : nat) (L : list change) (l : list (key * iodata)) : outcome (list (key * iodata)) :=
  match L with [] => Ok l | (k, f) :: r => do l' <- put_desc cap k f [] l; run cap r l' end.

Lemma run_app : forall cap L1 L2 l, run cap (L1 ++ L2) l = (do l' <- run cap L1 l; run cap L2 l').
Proof.
  induction L1 as [|[k f] r IH]; intros L2 l; [reflexivity|]. cbn. destruct (put_desc cap k f [] l); cbn; [apply IH|reflexivity|reflexivity].
Qed.

Definition apply1 (k : key) (acc : option iodata) (c : change) : option iodata :=
  if keyeqb (fst c) k then Some (snd c (dflt acc)) else acc.

Lemma run_look : forall cap L l l', run cap L l = Ok l' -> forall k, look k l' = fold_left (apply1 k) L (look k l).
Proof.
  induction L as [|[k f] r IH]; intros l l' H k'; cbn in H.
  - now inversion H.
  - destruct (put_desc cap k f [] l) as [l1| |] eqn:E; try discriminate. cbn in H.
    rewrite (IH _ _ H k'). cbn [fold_left]. f_equal. destruct (put_desc_view _ _ _ _ [] _ eq_refl E) as [V _].
    rewrite V. cbn. unfold apply1. cbn. reflexivity.
Qed.

Lemma run_keys : forall cap L l l', run cap L l = Ok l' -> NoDup (map fst l) -> NoDup (map fst l').
Proof.
  induction L as [|[k f] r IH]; intros l l' H N; cbn in H.
  - now inversion H; subst.
  - destruct (put_desc cap k f [] l) as [l1| |] eqn:E; try discriminate. cbn in H. apply (IH _ _ H).
    destruct (put_desc_view _ _ _ _ [] _ eq_refl E) as [_ V]. rewrite V. cbn.
    destruct (look k l) as [o|] eqn:El; [now rewrite app_nil_r|].
    apply look_none in El.
    clear -N El. induction (map fst l) as [|a m IHm]; cbn; [constructor; [auto|constructor]|].
    inversion N; subst. constructor.
    + intros Hin. apply in_app_or in Hin. destruct Hin as [?|[?|[]]]; [tauto|]. subst. apply El. now left.
    + apply IHm; [assumption|]. intros Hin. apply El. now right.
Qed.

Lemma run_incl : forall cap L l l', run cap L l = Ok l' ->
  forall k, In k (map fst l') -> In k (map fst l) \/ In k (map fst L).
Proof.
  intros cap L l l' H k Hk.
  destruct (look k l) eqn:E; [left; apply look_in in E; change k with (fst (k, i)); now apply in_map|].
  right. assert (Hn : look k l' <> None) by (intros Hn; apply look_none in Hn; auto).
  rewrite (run_look _ _ _ _ H), E in Hn. clear -Hn.
  assert (G : forall L acc, fold_left (apply1 k) L acc <> None -> acc <> None \/ In k (map fst L)).
  { induction L0 as [|[k' f] r IH]; intros acc Ha; [now left|]. cbn in Ha. apply IH in Ha. cbn.
    destruct Ha as [Ha|Ha]; [|tauto]. unfold apply1 in Ha. cbn in Ha. destruct (keyeqb k' k) eqn:E; [|tauto].
    apply keyeqb_eq in E. tauto. }
  apply G in Hn. destruct Hn; [congruence|assumption].
Qed.

Lemma run_forall : forall cap (P : iodata -> Prop) L l l',
  (forall c o, In c L -> P o -> P (snd c o)) -> P desc0 -> (forall e, In e l -> P (snd e)) ->
  run cap L l = Ok l' -> forall e, In e l' -> P (snd e).
Proof.
  induction L as [|[k f] r IH]; intros l l' Hf H0 Hl H e He; cbn in H.
  - inversion H; subst. now apply Hl.
  - destruct (put_desc cap k f [] l) as [l1| |] eqn:E; try discriminate. cbn in H.
    eapply (IH l1 l'); [intros; apply Hf; [now right|assumption]|assumption| |exact H|exact He].
    apply (put_desc_forall cap k f P l [] l1); [| |intros ? []|exact Hl|exact E].
    + intros o. apply (Hf (k, f)). now left.
    + assumption.
Qed.

(** No overflow if the keys come from a list that is not longer than the table. *)
Lemma run_ok : forall cap K L l, (length K <= cap)%nat ->
  (forall k, In k (map fst L) -> In k K) -> NoDup (map fst l) -> (forall k, In k (map fst l) -> In k K) ->
  exists l', run cap L l = Ok l'.
Proof.
  induction L as [|[k f] r IH]; intros l HK HL N Hl; cbn; [eauto|].
  destruct (put_desc_ok cap k f l [] eq_refl) as [l1 E].
  - intros Hn. apply look_none in Hn. cbn. assert (length (k :: map fst l) <= length K)%nat.
    { apply NoDup_incl_length; [now constructor|]. intros x [<-|Hx]; [apply HL; now left|now apply Hl]. }
    cbn in H. rewrite map_length in H. lia.
  - rewrite E. cbn. apply IH; [assumption|intros; apply HL; now right| |].
    + apply (run_keys cap [(k, f)] l l1); [cbn; now rewrite E|assumption].
    + intros x Hx. destruct (run_incl cap [(k, f)] l l1) with (k := x) as [H|H]; [cbn; now rewrite E|assumption|now apply Hl|].
      cbn in H. destruct H as [<-|[]]. apply HL. now left.
Qed.

(** Entries with distinct keys: each key gets its own change only. *)
Lemma fold_apply_none : forall k L acc, ~ In k (map fst L) -> fold_left (apply1 k) L acc = acc.
Proof.
  induction L as [|[k' f] r IH]; intros acc H; [reflexivity|]. cbn. cbn in H.
  unfold apply1 at 2. cbn. rewrite keyeqb_neq by tauto. apply IH. tauto.
Qed.

Lemma fold_apply_one : forall k f L acc, NoDup (map fst L) -> In (k, f) L -> fold_left (apply1 k) L acc = Some (f (dflt acc)).
Proof.
  induction L as [|[k' f'] r IH]; intros acc N H; [destruct H|]. cbn in N. inversion N as [|? ? Hn N']; subst.
  cbn. destruct H as [H|H].
  - inversion H; subst. unfold apply1 at 2. cbn. rewrite keyeqb_refl. now apply fold_apply_none.
  - unfold apply1 at 2. cbn. rewrite keyeqb_neq; [now apply IH|]. intros ->. apply Hn.
    change k with (fst (k, f)). now apply in_map.
Qed.

(** * The layout as a run of updates *)

Definition fkey (a : Z) (f : fdesc) : key := (a, fd_slot f, fd_subslot f).
Definition gdata (exp : list xapi) (input : bool) (a : Z) (f : fdesc) : list change :=
  match get_exp_sub exp a (fd_slot f) (fd_subslot f) with
  | None => []
  | Some x => match exp_desc x input true with None => [] | Some d => [(fkey a f, data_part input x d (fd_offset f))] end
  end.
Definition giocs (exp : list xapi) (input : bool) (a : Z) (f : fdesc) : list change :=
  match get_exp_sub exp a (fd_slot f) (fd_subslot f) with
  | None => []
  | Some x => match exp_desc x input false with None => [] | Some d => [(fkey a f, iocs_part x d (fd_offset f))] end
  end.
Definition data_changes (exp : list xapi) (input : bool) (apis : list apientry) : list change :=
  flat_map (fun e => flat_map (gdata exp input (ae_api e)) (ae_data e)) apis.
Definition iocs_changes (exp : list xapi) (input : bool) (apis : list apientry) : list change :=
  flat_map (fun e => flat_map (giocs exp input (ae_api e)) (ae_iocs e)) apis.

Lemma y_desc_add_len : forall input n y l, y_desc (add_len input n y l) = l.
Proof. intros [|] n y l; reflexivity. Qed.

Definition omap {A B} (f : A -> B) (x : outcome A) : outcome B := do a <- x; Ok (f a).

Lemma ofold_run : forall A B (proj : B -> list (key * iodata)) (step : A -> B -> outcome B) (g : A -> list change) cap,
  (forall a b, omap proj (step a b) = run cap (g a) (proj b)) ->
  forall l b, omap proj (ofold step l b) = run cap (flat_map g l) (proj b).
Proof.
  intros A B proj step g cap H. induction l as [|a r IH]; intros b; [reflexivity|].
  cbn. rewrite run_app, <- H. destruct (step a b) as [b'| |]; cbn; [apply IH|reflexivity|reflexivity].
Qed.

Lemma setup_data_run : forall cap exp input apis y,
  omap y_desc (setup_data cap exp input apis y) = run cap (data_changes exp input apis) (y_desc y).
Proof.
  intros. unfold setup_data, data_changes. apply ofold_run. intros e b.
  apply ofold_run. intros f y'. unfold setup_data1, gdata.
  destruct (get_exp_sub _ _ _ _) as [x|]; [|reflexivity]. destruct (exp_desc x input true) as [d|]; [|reflexivity].
  cbn. unfold fkey. destruct (put_desc _ _ _ _ _) as [l| |]; cbn; [|reflexivity|reflexivity].
  now rewrite y_desc_add_len.
Qed.

Lemma setup_iocs_run : forall cap exp input apis y,
  omap (fun yb => y_desc (fst yb)) (setup_iocs cap exp input apis y) = run cap (iocs_changes exp input apis) (y_desc y).
Proof.
  intros. unfold setup_iocs, iocs_changes.
  rewrite (ofold_run _ _ (fun yb : layout * bool => y_desc (fst yb)) _ (fun e => flat_map (giocs exp input (ae_api e)) (ae_iocs e)) cap); [reflexivity|].
  intros e b. apply (ofold_run _ _ (fun yb : layout * bool => y_desc (fst yb))). intros f [y' b']. unfold setup_iocs1, giocs. cbn [fst].
  destruct (get_exp_sub _ _ _ _) as [x|]; [|reflexivity]. destruct (exp_desc x input false) as [d|]; [|reflexivity].
  cbn. unfold fkey. destruct (put_desc _ _ _ _ _) as [l| |]; cbn; [|reflexivity|reflexivity].
  now rewrite y_desc_add_len.
Qed.

Definition changes (exp : list xapi) (p : crparam) : list change :=
  data_changes exp (is_input p) (p_apis p) ++ iocs_changes exp (is_input p) (p_apis p).

Lemma setup_desc_run : forall cap exp p,
  omap (fun yb => y_desc (fst yb)) (setup_desc cap exp p) = run cap (changes exp p) [].
Proof.
  intros. unfold setup_desc, changes. rewrite run_app.
  pose proof (setup_data_run cap exp (is_input p) (p_apis p) (mkLayout [] 0 0)) as H.
  destruct (setup_data _ _ _ _ _) as [y| |]; cbn in H; rewrite <- H; cbn; [|reflexivity|reflexivity].
  apply setup_iocs_run.
Qed.

(** The keys of all expected submodules. *)
Definition exp_keys (exp : list xapi) : list key :=
  flat_map (fun x => flat_map (fun m => map (fun s => (xa_api x, xm_slot m, xs_subslot s)) (xm_subs m)) (xa_mods x)) exp.

Lemma get_exp_sub_in : forall exp a s t x, get_exp_sub exp a s t = Some x ->
  exists xa xm, In xa exp /\ xa_api xa = a /\ In xm (xa_mods xa) /\ xm_slot xm = s /\ In x (xm_subs xm) /\ xs_subslot x = t.
Proof.
  intros exp a s t x H. unfold get_exp_sub, get_exp_mod, get_exp_api in H.
  destruct (find _ exp) as [xa|] eqn:E1; [|discriminate]. destruct (find _ (xa_mods xa)) as [xm|] eqn:E2; [|discriminate].
  apply find_some in E1, E2, H. destruct E1, E2, H. exists xa, xm. rewrite !Z.eqb_eq in *. auto 10.
Qed.

Lemma get_exp_sub_key : forall exp a s t x, get_exp_sub exp a s t = Some x -> In (a, s, t) (exp_keys exp).
Proof.
  intros exp a s t x H. apply get_exp_sub_in in H. destruct H as (xa & xm & H1 & <- & H2 & <- & H3 & <-).
  unfold exp_keys. apply in_flat_map. exists xa. split; [assumption|]. apply in_flat_map. exists xm. split; [assumption|].
  now apply (in_map (fun s => (xa_api xa, xm_slot xm, xs_subslot s))).
Qed.

Lemma flat_map_length_le : forall A B (f : A -> list B) n l, (forall a, In a l -> (length (f a) <= n)%nat) ->
  (length (flat_map f l) <= length l * n)%nat.
Proof.
  induction l as [|a r IH]; intros H; cbn; [lia|]. rewrite app_length.
  specialize (IH (fun b Hb => H b (or_intror Hb))). specialize (H a (or_introl eq_refl)). lia.
Qed.

Lemma exp_keys_length : forall na ns nt q, fits na ns nt q -> (length (exp_keys (q_exp q)) <= na * ns * nt)%nat.
Proof.
  intros na ns nt q [H1 H2]. unfold exp_keys.
  transitivity (length (q_exp q) * (ns * nt))%nat.
  - apply flat_map_length_le. intros a Ha. destruct (H2 a Ha) as [H3 H4].
    transitivity (length (xa_mods a) * nt)%nat; [|now apply Nat.mul_le_mono_r].
    apply flat_map_length_le. intros m Hm. rewrite map_length. now apply H4.
  - rewrite <- Nat.mul_assoc. now apply Nat.mul_le_mono_r.
Qed.

Lemma changes_in : forall exp p k f, In (k, f) (changes exp p) ->
  exists e fd x, In e (p_apis p) /\ k = fkey (ae_api e) fd /\ get_exp_sub exp (ae_api e) (fd_slot fd) (fd_subslot fd) = Some x /\
    ((In fd (ae_data e) /\ exists d, exp_desc x (is_input p) true = Some d /\ f = data_part (is_input p) x d (fd_offset fd)) \/
     (In fd (ae_iocs e) /\ exists d, exp_desc x (is_input p) false = Some d /\ f = iocs_part x d (fd_offset fd))).
Proof.
  intros exp p k f H. unfold changes in H. apply in_app_or in H. destruct H as [H|H].
  - unfold data_changes in H. apply in_flat_map in H. destruct H as (e & He & H). apply in_flat_map in H. destruct H as (fd & Hf & H).
    unfold gdata in H. destruct (get_exp_sub _ _ _ _) as [x|] eqn:E; [|destruct H]. destruct (exp_desc _ _ _) as [d|] eqn:Ed; [|destruct H].
    destruct H as [H|[]]. inversion H; subst. exists e, fd, x. eauto 10.
  - unfold iocs_changes in H. apply in_flat_map in H. destruct H as (e & He & H). apply in_flat_map in H. destruct H as (fd & Hf & H).
    unfold giocs in H. destruct (get_exp_sub _ _ _ _) as [x|] eqn:E; [|destruct H]. destruct (exp_desc _ _ _) as [d|] eqn:Ed; [|destruct H].
    destruct H as [H|[]]. inversion H; subst. exists e, fd, x. eauto 10.
Qed.

Lemma exp_desc_in : forall x i b d, exp_desc x i b = Some d -> In d (xs_descs x).
Proof. intros x i b d H. unfold exp_desc in H. destruct (desc_direction _ _ _); [|discriminate]. now apply find_some in H. Qed.

Lemma setup_desc_ok : forall na ns nt q p, fits na ns nt q ->
  exists y b, setup_desc (na * ns * nt) (q_exp q) p = Ok (y, b).
Proof.
  intros na ns nt q p F. pose proof (setup_desc_run (na * ns * nt) (q_exp q) p) as R.
  destruct (run_ok (na * ns * nt) (exp_keys (q_exp q)) (changes (q_exp q) p) []) as [l E].
  - now apply exp_keys_length.
  - intros k H. apply in_map_iff in H. destruct H as ([k' f] & <- & H). cbn.
    apply changes_in in H. destruct H as (e & fd & x & _ & -> & H & _). now apply get_exp_sub_key in H.
  - constructor.
  - intros k [].
  - rewrite E in R. destruct (setup_desc _ _ _) as [[y b]| |]; try discriminate. eauto.
Qed.

Lemma setup_all_nth : forall cap exp crs ys, setup_all cap exp crs = Ok (Some ys) ->
  length ys = length crs /\ forall i p y, nth_error crs i = Some p -> nth_error ys i = Some y -> setup_desc cap exp p = Ok (y, true).
Proof.
  induction crs as [|p r IH]; intros ys H; cbn in H.
  - inversion H; subst. split; [reflexivity|]. intros [|i] p y Hp; discriminate.
  - destruct (setup_desc cap exp p) as [[y b]| |] eqn:E; try discriminate. cbn in H. destruct b; [|discriminate].
    destruct (setup_all cap exp r) as [[ys'|]| |] eqn:E2; try discriminate. cbn in H. inversion H; subst.
    destruct (IH _ eq_refl) as [H1 H2]. split; [cbn; lia|]. intros [|i] p' y' Hp Hy; cbn in Hp, Hy.
    + inversion Hp; inversion Hy; subst. assumption.
    + eauto.
Qed.

(** ** What every descriptor of a layout looks like *)

Definition desc_inv (o : iodata) : Prop :=
  0 <= d_off o < 65536 /\ 0 <= d_len o /\ 0 <= s_len o /\ 0 <= k_off o /\ 0 <= k_len o /\ s_off o = u16 (d_off o + d_len o).

Lemma layout_inv : forall cap q p y b, wf q -> In p (q_crs q) -> setup_desc cap (q_exp q) p = Ok (y, b) ->
  forall e, In e (y_desc y) -> desc_inv (snd e).
Proof.
  intros cap q p y b (W1 & W2 & _) Hp H. pose proof (setup_desc_run cap (q_exp q) p) as R. rewrite H in R. cbn in R. symmetry in R.
  eapply run_forall; [| | |exact R].
  - intros [k f] o Hc Ho. cbn. apply changes_in in Hc. destruct Hc as (e & fd & x & He & _ & Hx & Hf).
    destruct (W1 p Hp) as (_ & _ & _ & _ & _ & _ & W3). destruct (W3 e He) as [_ W4].
    apply get_exp_sub_in in Hx. destruct Hx as (xa & xm & X1 & _ & X2 & _ & X3 & _).
    unfold desc_inv in *. destruct Ho as (O1 & O2 & O3 & O4 & O5 & O6).
    destruct Hf as [(Hin & d & Hd & ->)|(Hin & d & Hd & ->)];
      apply exp_desc_in in Hd; destruct (W2 _ _ _ _ X1 X2 X3 Hd) as (D1 & D2 & D3);
      unfold is16, is8 in *; (destruct (W4 fd) as (_ & _ & W5); [apply in_or_app; tauto|]); unfold is16 in W5.
    + unfold data_part. destruct (_ || _)%bool; destruct (xs_discard x); cbn; repeat split; try lia; reflexivity.
    + unfold iocs_part. destruct (xs_discard x); cbn; repeat split; try lia; assumption.
  - unfold desc_inv, desc0; cbn. repeat split; try lia; reflexivity.
  - intros e [].
Qed.

(** * Acceptance *)

Lemma check_entry_some : forall exp ty a e, check_entry exp ty (Some e) a <> None.
Proof.
  intros exp ty a e. unfold check_entry. destruct (get_exp_api _ _); [|discriminate].
  destruct (_ && _)%bool; discriminate.
Qed.
Lemma fold_entry_some : forall exp ty l e, fold_left (check_entry exp ty) l (Some e) <> None.
Proof.
  induction l as [|a r IH]; intros e; cbn; [discriminate|].
  destruct (check_entry exp ty (Some e) a) eqn:E; [apply IH|now apply check_entry_some in E].
Qed.
Lemma fold_entry_none : forall exp ty l e, fold_left (check_entry exp ty) l e = None ->
  e = None /\ forall a, In a l -> check_entry exp ty None a = None.
Proof.
  induction l as [|a r IH]; intros e H; cbn in H.
  - split; [assumption|]. intros a [].
  - destruct (IH _ H) as [H1 H2]. destruct e as [e|]; [now apply check_entry_some in H1|].
    split; [reflexivity|]. intros a' [<-|Hin]; [assumption|now apply H2].
Qed.

Lemma check_apis_none : forall exp l e, check_apis exp l e = None ->
  e = None /\ forall p y, In (p, y) l ->
    (forall a, In a (p_apis p) -> check_entry exp (p_type p) None a = None) /\ check_descs (p_sdu p) [] (y_desc y) None = None.
Proof.
  induction l as [|[p y] r IH]; intros e H; cbn in H.
  - split; [assumption|]. intros p y [].
  - apply IH in H. destruct H as [H1 H2].
    destruct (check_descs_none _ _ _ _ H1) as [H3 _]. rewrite H3 in H1.
    destruct (fold_entry_none _ _ _ _ H3) as [-> H4]. split; [reflexivity|].
    intros p' y' [E|Hin]; [inversion E; subst; now split|now apply H2].
Qed.

Lemma check_apdu_accepted : forall mdi cap app q v v' ys, check_apdu mdi cap app q v = Ok (v', Accepted ys) ->
  check_ar (q_ar q) = None /\
  (forall p, In p (q_crs q) -> check_cr mdi (q_ar q) p = None) /\
  exp_configure app q v = (v', None) /\
  setup_all cap (q_exp q) (q_crs q) = Ok (Some ys) /\
  check_apis (q_exp q) (combine (q_crs q) ys) None = None /\
  check_counts q = None /\
  (forall l r, rev (q_alarms q) = l :: r -> check_alarm (q_ar q) l = None) /\
  (forall port, q_rpc q = Some port -> check_rpc port = None).
Proof.
  intros mdi cap app q v v' ys H. unfold check_apdu in H.
  destruct (check_ar (q_ar q)); [discriminate|]. destruct (check_crs _ _ _ _) eqn:E1; [discriminate|].
  destruct (exp_configure app q v) as [v1 [e|]]; [discriminate|].
  destruct (setup_all _ _ _) as [[ys'|]| |]; try discriminate. cbn in H.
  destruct (check_apis _ _ _) eqn:E2; [discriminate|]. destruct (check_counts q); [discriminate|].
  destruct (match rev _ with [] => _ | _ => _ end) eqn:E3; [discriminate|].
  destruct (match q_rpc q with Some _ => _ | _ => _ end) eqn:E4; [discriminate|].
  inversion H; subst. split; [reflexivity|]. split; [now apply check_crs_none in E1|].
  do 2 (split; [reflexivity|]). split; [assumption|]. split; [reflexivity|]. split.
  - intros l r Hr. now rewrite Hr in E3.
  - intros port Hp. now rewrite Hp in E4.
Qed.

Lemma nth_combine_in : forall A B (l : list A) (m : list B) i a b,
  nth_error l i = Some a -> nth_error m i = Some b -> In (a, b) (combine l m).
Proof.
  induction l as [|x r IH]; intros [|y m] [|i] a b H1 H2; cbn in *; try discriminate.
  - inversion H1; inversion H2; subst. now left.
  - right. eapply IH; eassumption.
Qed.

(** The facts about one relation of an accepted request. *)
Lemma accepted_relation : forall mdi cap app q v v' ys i p y, check_apdu mdi cap app q v = Ok (v', Accepted ys) ->
  nth_error (q_crs q) i = Some p -> nth_error ys i = Some y ->
  check_cr mdi (q_ar q) p = None /\ setup_desc cap (q_exp q) p = Ok (y, true) /\
  (forall a, In a (p_apis p) -> check_entry (q_exp q) (p_type p) None a = None) /\
  check_descs (p_sdu p) [] (y_desc y) None = None.
Proof.
  intros mdi cap app q v v' ys i p y H Hp Hy. apply check_apdu_accepted in H. destruct H as (H1 & H2 & H3 & H4 & H5 & _).
  split; [apply H2; now apply nth_error_In in Hp|].
  destruct (setup_all_nth _ _ _ _ H4) as [_ H6]. split; [now apply (H6 i)|].
  apply check_apis_none in H5. destruct H5 as [_ H5]. apply H5. eapply nth_combine_in; eassumption.
Qed.

Lemma layout_nodup : forall cap exp p y b, setup_desc cap exp p = Ok (y, b) -> NoDup (map fst (y_desc y)).
Proof.
  intros cap exp p y b H. pose proof (setup_desc_run cap exp p) as R. rewrite H in R. cbn in R. symmetry in R.
  eapply run_keys; [exact R|]. constructor.
Qed.
