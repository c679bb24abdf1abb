(** Effect of each call on the diagnosis store. *)

From Coq Require Import List Arith Bool ZArith Lia.
From Verif Require Import Base DiagModel DiagLists DiagSpec DiagInv.
Import ListNotations.
Set Implicit Arguments.
Open Scope nat_scope.

Definition contents (s : dstate) (Ls : nat -> list nat) (j : nat) : list diag :=
  map content (map (items s) (Ls j)).

(** ** Validity of parameters *)
Ltac zb :=
  repeat match goal with
  | |- context [(?a =? ?b)%Z] => destruct (Z.eqb_spec a b)
  | |- context [(?a <? ?b)%Z] => destruct (Z.ltb_spec a b)
  | |- context [(?a <=? ?b)%Z] => destruct (Z.leb_spec a b)
  end.

Lemma remove_valid_iff : forall src err ext usi, 
  remove_valid src err ext usi = true <-> acceptable_key src err ext usi.
Proof.
  intros src err ext usi. unfold remove_valid, acceptable_key, usi_known.
  change usi_channel with 32768%Z. change usi_multiple with 32769%Z.
  change usi_qualified with 32771%Z. change whole_submodule with 32768%Z.
  rewrite !andb_true_iff, !negb_true_iff, ?orb_false_iff, ?andb_false_iff, ?negb_false_iff,
    ?Z.ltb_ge, ?Z.leb_gt, ?Z.eqb_eq, ?Z.eqb_neq.
  lia.
Qed.

Definition has_data (data : option (list Z)) : bool :=
  match data with Some _ => true | None => false end.
Lemma has_data_none : forall d, has_data d = false <-> d = None.
Proof. intros [d|]; cbn; split; congruence. Qed.

Lemma data_iff : forall maxm usi len data,
  negb ((usi_channel <=? usi)%Z
           && (match data with Some _ => true | None => false end || negb (len =? 0)%Z))
  && negb ((0 <? len)%Z && match data with Some _ => false | None => true end)
  && negb (maxm <? len)%Z = true <-> acceptable_data maxm usi len data.
Proof.
  intros maxm usi len data. unfold acceptable_data. change usi_channel with 32768%Z.
  destruct data as [d|]; cbn [orb negb andb];
  rewrite !andb_true_iff, !negb_true_iff, ?orb_false_iff, ?andb_false_iff, ?negb_false_iff,
    ?Z.ltb_ge, ?Z.leb_gt, ?Z.eqb_eq, ?Z.eqb_neq.
  - split; [intros [[[A|A] B] C]|intros (A & B & C)].
    + split; [lia|split; [intros _ _; discriminate|lia]].
    + discriminate A.
    + split; [split; [left|right; auto]|lia].
      destruct (Z.lt_ge_cases usi 32768); auto. destruct (C H). discriminate.
  - split; [intros [[A B] C]|intros (A & B & C)].
    + split; [lia|split; [|split; auto; lia]].
      intros H1 H2. destruct B; [lia|discriminate].
    + split; [split|]; try lia.
      left. destruct (Z.lt_ge_cases usi 32768).
      * destruct (Z.le_gt_cases len 0); auto. destruct (B H H0). reflexivity.
      * destruct (C H). lia.
Qed.

Lemma update_valid_iff : forall maxm src err ext addv usi len data,
  update_valid maxm src err ext addv usi len data = true <->
  acceptable_update maxm src err ext addv usi len data.
Proof.
  intros. unfold acceptable_update. rewrite <- remove_valid_iff, <- data_iff.
  unfold update_valid, remove_valid.
  rewrite !andb_true_iff.
  assert (Q : negb ((usi <=? usi_channel)%Z && negb (addv =? 0)%Z) = true
              <-> ((usi <= 32768)%Z -> addv = 0%Z)).
  { change usi_channel with 32768%Z.
    rewrite negb_true_iff, andb_false_iff, negb_false_iff, Z.leb_gt, Z.eqb_eq. lia. }
  rewrite Q. tauto.
Qed.

Lemma add_valid_iff : forall maxm src sev err ext addv qual usi len data,
  add_valid maxm src sev err ext addv (Z.land qual (Z.lnot 7)) usi len data = true <->
  acceptable maxm src sev err ext addv qual usi len data.
Proof.
  intros. unfold acceptable. rewrite <- update_valid_iff. cbv zeta.
  set (q := Z.land qual (Z.lnot 7)). clearbody q.
  unfold add_valid, update_valid.
  rewrite !andb_true_iff.
  assert (Q : negb (negb (usi =? usi_qualified)%Z && negb (q =? 0)%Z) = true /\
              negb (negb (usi =? usi_qualified)%Z && (sev =? m_qualified)%Z) = true /\
              negb (negb (q =? 0)%Z && negb (sev =? m_qualified)%Z) = true
              <-> (usi <> 32771 -> q = 0 /\ sev <> 3)%Z /\ (q <> 0 -> sev = 3)%Z).
  { change usi_qualified with 32771%Z. change m_qualified with 3%Z.
    rewrite !negb_true_iff, !andb_false_iff, !negb_false_iff, !Z.eqb_eq, !Z.eqb_neq. lia. }
  rewrite <- Q. tauto.
Qed.

(** ** New contents *)
Lemma land_nonneg_l : forall a b, (0 <= a)%Z -> (0 <= Z.land a b)%Z.
Proof. intros. apply Z.land_nonneg. auto. Qed.

Lemma fill_content : forall src bits sev err ext addv qual usi len data old,
  in_range bits (s_group src) sev (s_dir src) ->
  content (fill_item src bits sev err ext addv (Z.land qual (Z.lnot 7)) usi len data old) =
  described src bits sev err ext addv qual usi len data.
Proof.
  intros. unfold content, fill_item, described. change usi_channel with 32768%Z.
  destruct (usi <? 32768)%Z eqn:U; cbn [d_usi d_data d_std]; rewrite U; auto.
  destruct (@new_props_fields src bits sev H) as (-> & _). reflexivity.
Qed.

Lemma described_key : forall src bits sev err ext addv qual usi len data,
  in_range bits (s_group src) sev (s_dir src) ->
  key_of (described src bits sev err ext addv qual usi len data) = named src err ext usi.
Proof.
  intros. unfold described, named. destruct (usi <? 32768)%Z; auto. cbn.
  destruct (@new_props_fields src bits sev H) as (E & _ & E1 & _ & E2 & _). cbv zeta in *. rewrite E in *.
  now rewrite E1, E2.
Qed.

Lemma fill_good : forall src bits sev err ext addv qual usi len data old,
  in_range bits (s_group src) sev (s_dir src) -> (0 <= qual)%Z ->
  ((32768 <= usi)%Z -> ~ (usi_source src /\ err = 0%Z /\ ext = 0%Z)) -> (0 <= usi <= 32771)%Z ->
  good_item (fill_item src bits sev err ext addv (Z.land qual (Z.lnot 7)) usi len data old).
Proof.
  intros src bits sev err ext addv qual usi len data old H Q B Ru.
  split; [unfold fill_item; destruct (usi <? usi_channel)%Z; exact Ru|]. intros L.
  rewrite fill_content, described_key by exact H.
  unfold fill_item in *. change usi_channel with 32768%Z in *.
  destruct (Z.ltb_spec usi 32768) as [U|U]; cbn [d_usi d_std ch_props qualifier] in *; [lia|].
  split; [|split].
  - exists bits, (s_group src), sev, (s_dir src). split; auto. now apply new_props_fields.
  - now apply land_nonneg_l.
  - unfold named. destruct (Z.ltb_spec usi 32768); [lia|]. intros E. injection E as E1 E2 E3 E4 E5.
    apply (B U). unfold usi_source. auto.
Qed.

Lemma refresh_content : forall addv len data i, good_item i ->
  content (refresh_item addv len data i) = updated addv len data (content i).
Proof.
  intros addv len data i G. unfold content, refresh_item. change usi_channel with 32768%Z. change sp_appears with 1%Z.
  destruct (Z.ltb_spec (d_usi i) 32768) as [U|U]; cbn [set_spec d_usi d_data d_std updated ch_nbr ch_props ch_err ext_err qualifier].
  - destruct (Z.ltb_spec (d_usi i) 32768); [reflexivity|lia].
  - destruct (Z.ltb_spec (d_usi i) 32768); [lia|].
    destruct G as [_ G]. destruct (G U) as (P & _). destruct (good_fields P) as (_ & _ & _ & _ & ->). reflexivity.
Qed.
Lemma updated_key : forall addv len data d, key_of (updated addv len data d) = key_of d.
Proof. intros addv len data [u s|u x]; reflexivity. Qed.
Lemma refresh_good : forall addv len data i, good_item i -> good_item (refresh_item addv len data i).
Proof.
  intros addv len data i G. unfold good_item. rewrite refresh_content, updated_key by auto.
  destruct G as [Ru G].
  split; [unfold refresh_item; destruct (d_usi i <? usi_channel)%Z; exact Ru|]. intros L. unfold refresh_item in *. change usi_channel with 32768%Z in *. change sp_appears with 1%Z in *.
  destruct (Z.ltb_spec (d_usi i) 32768) as [U|U];
    cbn [set_spec d_usi d_data d_std ch_nbr ch_props ch_err ext_err qualifier] in *; [lia|].
  destruct (G U) as (P & Q & R). destruct (good_fields P) as (_ & _ & _ & _ & ->). auto.
Qed.

(** ** Lists of keys *)
Lemma nodup_split : forall (A : Type) (l1 : list A) a l2, NoDup (l1 ++ a :: l2) ->
  ~ In a (l1 ++ l2) /\ NoDup (l1 ++ l2).
Proof. intros. split; [eapply NoDup_remove_2; eauto|eapply NoDup_remove_1; eauto]. Qed.

Lemma has_key_iff : forall k d, has_key k d = true <-> key_of d = k.
Proof. intros k d. unfold has_key. destruct (dkey_eq_dec _ _); split; congruence. Qed.

Lemma filter_none : forall k l, ~ In k (map key_of l) ->
  filter (fun d => negb (has_key k d)) l = l.
Proof.
  induction l as [|a l IH]; cbn; intros N; auto.
  destruct (has_key k a) eqn:E; cbn.
  - apply has_key_iff in E. exfalso. apply N. auto.
  - f_equal. apply IH. tauto.
Qed.
Lemma filter_one : forall k l1 a l2, NoDup (map key_of (l1 ++ a :: l2)) -> key_of a = k ->
  filter (fun d => negb (has_key k d)) (l1 ++ a :: l2) = l1 ++ l2.
Proof.
  intros k l1 a l2 N E. rewrite map_app in N. cbn in N. destruct (nodup_split _ _ _ N) as [N1 _].
  rewrite <- map_app in N1. rewrite filter_app. cbn.
  assert (has_key k a = true) by now apply has_key_iff. rewrite H. cbn.
  rewrite <- filter_app. apply filter_none. now subst k.
Qed.

Section Steps.
Variable max : nat.
Variable maxm : Z.

(** ** Searching *)
Lemma search : forall s Ls F c src err ext usi, dinv max s Ls F -> c < length (cells s) ->
  src_ok src usi -> acceptable_key src err ext usi ->
  let cl := nth c (cells s) dcell in
  let k := named src err ext usi in
  (~ In k (map key_of (contents s Ls c)) /\
   find_loop (S max) (matches src err ext usi) (items s) (c_list cl) None (c_list cl)
     = Some (items s, c_list cl, None)) \/
  exists r1 i r2 its head, Ls c = r1 ++ i :: r2 /\
    key_of (content (items s i)) = k /\
    find_loop (S max) (matches src err ext usi) (items s) (c_list cl) None (c_list cl)
      = Some (its, head, Some i) /\
    chain its head (r1 ++ r2) /\ its i = items s i /\
    (forall j, alike (its j) (items s j)) /\
    lists max its (freel s) (set_cell c (with_list head cl) (cells s)) (upd Ls c (r1 ++ r2)) F /\
    i < max /\ d_use (its i) = true /\
    outside i (set_cell c (with_list head cl) (cells s)) (upd Ls c (r1 ++ r2)) F.
Proof.
  intros s Ls F c src err ext usi I Hc R K cl k.
  pose proof (i_lists I) as L.
  pose proof (@l_chain _ _ _ _ _ _ L c Hc) as C. pose proof (@l_nodup _ _ _ _ _ _ L c Hc) as N.
  pose proof (@len_bound _ _ _ _ _ _ c L Hc) as B.
  assert (M : forall i, In i (Ls c) -> matches src err ext usi (items s i) = has_key k (content (items s i))).
  { intros i Hi. apply matches_key; auto. eapply i_good; eauto. }
  destruct (@find_loop_spec (matches src err ext usi) (items s) (c_list cl) (Ls c) [] (S max)
              (c_list cl) None) as [[A E]|H]; auto.
  - left. split; auto. unfold contents. rewrite !map_map. intros Hk. apply in_map_iff in Hk.
    destruct Hk as (i & E1 & Hi). rewrite Forall_forall in A. specialize (A i Hi).
    rewrite M in A by auto. assert (has_key k (content (items s i)) = true) by now apply has_key_iff.
    congruence.
  - right. destruct H as (r1 & i & r2 & its & head & E & A & Mi & Q & C' & S1 & S2).
    cbn [app] in *. exists r1, i, r2, its, head.
    assert (Hi : In i (Ls c)) by (rewrite E, in_app_iff; cbn; auto).
    rewrite M in Mi by auto. apply has_key_iff in Mi.
    destruct (@lists_unlink _ _ _ _ _ _ c r1 i r2 its head L Hc E C' S1 S2) as (X1 & X2 & X3 & X4).
    split; [exact E|]. split; [exact Mi|]. split; [exact Q|]. split; [exact C'|].
    split.
    { apply S1. intros Hr. rewrite E in N. apply NoDup_remove_2 in N. apply N.
      rewrite in_app_iff. auto. }
    split; [exact S2|]. split; [exact X1|]. split; [exact X2|]. split; [exact X3|exact X4].
Qed.

(** ** Storing *)
Definition same_cells (s s' : dstate) : Prop :=
  length (cells s') = length (cells s) /\
  (forall j, c_use (nth j (cells s') dcell) = c_use (nth j (cells s) dcell)) /\
  (forall j, c_key (nth j (cells s') dcell) = c_key (nth j (cells s) dcell)) /\
  (forall j, c_owner (nth j (cells s') dcell) = c_owner (nth j (cells s) dcell)).

Lemma find_cell_ext : forall k l l', length l' = length l ->
  (forall j, c_use (nth j l' dcell) = c_use (nth j l dcell)) ->
  (forall j, c_key (nth j l' dcell) = c_key (nth j l dcell)) ->
  find_cell k l' = find_cell k l.
Proof.
  induction l as [|x l IH]; intros [|x' l'] L U K; cbn in *; try discriminate; auto.
  pose proof (U 0) as U0. pose proof (K 0) as K0. cbn in U0, K0. rewrite U0, K0.
  rewrite (IH l'); auto; intros j; [exact (U (S j))|exact (K (S j))].
Qed.
Lemma same_find : forall s s' k, same_cells s s' -> find_cell k (cells s') = find_cell k (cells s).
Proof. intros s s' k (A & B & C & _). now apply find_cell_ext. Qed.

Record effect (s : dstate) (Ls : nat -> list nat) (s' : dstate) (Ls' : nat -> list nat)
    (c : nat) (new : list diag) : Prop := mkEffect {
  e_cells : same_cells s s';
  e_new : contents s' Ls' c = new;
  e_old : forall j, j < length (cells s) -> j <> c -> contents s' Ls' j = contents s Ls j
}.

Lemma same_cells_set : forall s its fr c x, c < length (cells s) ->
  c_use x = c_use (nth c (cells s) dcell) -> c_key x = c_key (nth c (cells s) dcell) ->
  c_owner x = c_owner (nth c (cells s) dcell) ->
  same_cells s (mkD its fr (set_cell c x (cells s))).
Proof.
  intros s its fr c x Hc U K O. unfold same_cells. cbn [cells]. split; [apply set_cell_length|].
  split; [|split]; intros j; (destruct (Nat.eq_dec j c) as [->|D];
    [rewrite nth_set_same by auto; auto|rewrite nth_set_other by auto; auto]).
Qed.

Lemma finish_step : forall s Ls F c i k its fr head x R F' dis ok1 ok2,
  dinv max s Ls F -> c < length (cells s) ->
  let cl := nth c (cells s) dcell in
  c_use cl = true ->
  lists max its fr (set_cell c (with_list head cl) (cells s)) (upd Ls c R) F' ->
  outside i (set_cell c (with_list head cl) (cells s)) (upd Ls c R) F' -> i < max ->
  (forall j z, j < length (cells s) -> In z (upd Ls c R j) -> alike (its z) (items s z)) ->
  incl R (Ls c) -> NoDup (map key_of (map content (map (items s) R))) ->
  d_use x = true -> good_item x ->
  ~ In (key_of (content x)) (map key_of (map content (map (items s) R))) ->
  exists s' Ls',
    finish max c i k (upd its i x) fr (cells s) head cl dis ok1 ok2 =
      Some (s',
            match c_owner cl with
            | None => -1 | Some _ => if match dis with None => ok1 | Some _ => ok2 end then 0 else -1
            end%Z,
            match c_owner cl with
            | None => []
            | Some ar => DAlarm ar k (with_next head x)
                         :: DIndicator ar (is_problem (x :: map (items s) R))
                         :: match dis with
                            | Some old => [DAlarm ar k (set_spec sp_dis_others old)]
                            | None => []
                            end
            end) /\
    dinv max s' Ls' F' /\ effect s Ls s' Ls' c (content x :: map content (map (items s) R)).
Proof.
  intros s Ls F c i k its fr head x R F' dis ok1 ok2 I Hc cl Uc L O Hi Al Inc Nk Ux Gx Kx.
  set (x' := with_next head x).
  set (cs1 := set_cell c (with_list head cl) (cells s)) in *.
  assert (Hc1 : c < length cs1) by (unfold cs1; now rewrite set_cell_length).
  assert (Nc1 : nth c cs1 dcell = with_list head cl) by (unfold cs1; now apply nth_set_same).
  assert (Nx : d_next x' = c_list (nth c cs1 dcell)) by (rewrite Nc1; reflexivity).
  pose proof (@lists_put _ _ _ _ _ _ i c x' L O Hi Hc1 Ux Nx) as P.
  rewrite Nc1 in P. unfold cs1 in P at 1. rewrite set_cell_twice in P.
  set (its' := upd its i x') in *.
  set (Ls' := upd (upd Ls c R) c (i :: upd Ls c R c)) in *.
  assert (LsC : Ls' c = i :: R) by (unfold Ls'; now rewrite !upd_same).
  assert (LsJ : forall j, j <> c -> Ls' j = Ls j).
  { intros j D. unfold Ls'. rewrite !upd_other; auto. }
  destruct O as [O1 O2]. unfold cs1 in O2. rewrite set_cell_length in O2.
  assert (Ni : ~ In i R). { pose proof (O2 c Hc) as Q. now rewrite upd_same in Q. }
  assert (AlC : forall z, In z R -> alike (its' z) (items s z)).
  { intros z Hz. unfold its'. rewrite upd_other by (intros ->; auto).
    apply (Al c); auto. now rewrite upd_same. }
  assert (AlJ : forall j z, j < length (cells s) -> j <> c -> In z (Ls j) -> alike (its' z) (items s z)).
  { intros j z Hj D Hz. pose proof (O2 j Hj) as Q. rewrite upd_other in Q by auto.
    unfold its'. rewrite upd_other by (intros ->; auto). apply (Al j); auto. now rewrite upd_other. }
  assert (Ei : its' i = x') by apply upd_same.
  assert (Ext : forall z, (upd (upd its i x) i (with_next head (upd its i x i))) z = its' z).
  { intros z. unfold its', upd. rewrite Nat.eqb_refl. destruct (z =? i); reflexivity. }
  set (itsf := upd (upd its i x) i (with_next head (upd its i x i))) in *.
  assert (Hp : forall l, chain its' (Some i) l -> chain itsf (Some i) l).
  { intros l H. eapply chain_frame; eauto. intros z _. now rewrite Ext. }
  assert (Ch : chain itsf (Some i) (i :: R)).
  { apply Hp. pose proof (@l_chain _ _ _ _ _ _ P c) as Q. rewrite set_cell_length in Q.
    specialize (Q Hc). rewrite nth_set_same, LsC in Q by auto. exact Q. }
  assert (Lb : length (i :: R) <= S max).
  { pose proof (@len_bound _ _ _ _ _ _ c P) as Q. rewrite set_cell_length in Q.
    specialize (Q Hc). rewrite LsC in Q. lia. }
  assert (Walk : walk_items max itsf (Some i) = Some (map itsf (i :: R))) by now apply walk_items_chain.
  assert (Mf : map itsf (i :: R) = x' :: map its' R).
  { cbn [map]. rewrite Ext, Ei. f_equal. apply map_ext. exact Ext. }
  assert (Su : summarize (map itsf (i :: R)) = summarize (x :: map (items s) R)).
  { rewrite Mf. unfold summarize. cbn [fold_left]. rewrite (summarize_from_alike _ _ _ _ AlC).
    reflexivity. }
  assert (Pr : is_problem (map itsf (i :: R)) = is_problem (x :: map (items s) R)).
  { rewrite Mf. unfold is_problem. cbn [existsb]. fold (is_problem (map its' R)).
    fold (is_problem (map (items s) R)). rewrite (problem_alike _ _ _ AlC). reflexivity. }
  set (cl' := with_sum (summarize (x :: map (items s) R)) (with_list (Some i) cl)).
  exists (mkD itsf fr (set_cell c cl' (cells s))), Ls'.
  split; [|split].
  - unfold finish. fold itsf. cbv zeta. rewrite Walk, Su, Pr. fold cl'.
    assert (Ex : itsf i = x') by now rewrite Ext. rewrite Ex.
    destruct (c_owner cl); [destruct dis|]; reflexivity.
  - constructor; cbn [items freel cells]; rewrite ?set_cell_length.
    + assert (P' : lists max its' fr (set_cell c cl' (cells s)) Ls' F').
      { eapply lists_cells; [exact P| |]; rewrite !set_cell_length; auto.
        intros j Hj. destruct (Nat.eq_dec j c) as [->|D].
        - now rewrite !nth_set_same by auto.
        - now rewrite !nth_set_other by auto. }
      destruct P'. constructor; auto.
      * intros j Hj. eapply chain_frame; eauto. intros z _. now rewrite Ext.
      * eapply chain_frame; eauto. intros z _. now rewrite Ext.
      * intros j z Hj Hz. rewrite Ext. eauto.
      * intros z Hz. rewrite Ext. eauto.
    + intros j z Hj Hz. rewrite Ext. destruct (Nat.eq_dec j c) as [->|D].
      * rewrite LsC in Hz. destruct Hz as [<-|Hz].
        -- rewrite Ei. eapply good_alike; [apply alike_next|exact Gx].
        -- eapply good_alike; [apply AlC; auto|]. eapply i_good; eauto.
      * rewrite LsJ in Hz by auto. eapply good_alike; [eapply AlJ; eauto|]. eapply i_good; eauto.
    + intros j z U1 U2 K.
      assert (Y : same_cells s (mkD itsf fr (set_cell c cl' (cells s)))) by now apply same_cells_set.
      destruct Y as (_ & Y1 & Y2 & _). cbn [cells] in Y1, Y2.
      rewrite Y1 in U1, U2. rewrite !Y2 in K. eapply i_keys; eauto.
    + intros j Hj. rewrite (map_ext _ _ Ext). destruct (Nat.eq_dec j c) as [->|D].
      * rewrite LsC. cbn [map]. rewrite Ei, (map_content_alike _ _ _ AlC). constructor; auto.
      * rewrite LsJ by auto. rewrite (@map_content_alike (items s) its' (Ls j)); [eapply i_uniq; eauto|].
        intros z Hz. eapply AlJ; eauto.
    + intros j U. rewrite (map_ext _ _ Ext). destruct (Nat.eq_dec j c) as [->|D].
      * rewrite nth_set_same by auto. rewrite LsC. unfold cl'. cbn [with_sum c_sum map].
        rewrite Ei. unfold summarize. cbn [fold_left]. rewrite (summarize_from_alike _ _ _ _ AlC).
        reflexivity.
      * rewrite nth_set_other in * by auto. rewrite LsJ by auto.
        destruct (Nat.lt_ge_cases j (length (cells s))) as [Hj|Hj].
        -- rewrite (@summarize_alike (items s) its' (Ls j)); [eapply i_sum; eauto|].
           intros z Hz. eapply AlJ; eauto.
        -- rewrite nth_overflow in U by auto. discriminate.
  - constructor.
    + now apply same_cells_set.
    + unfold contents. cbn [items]. rewrite (map_ext _ _ Ext), LsC. cbn [map].
      rewrite Ei, (map_content_alike _ _ _ AlC). reflexivity.
    + intros j Hj D. unfold contents. cbn [items]. rewrite (map_ext _ _ Ext), LsJ by auto.
      apply map_content_alike. intros z Hz. eapply AlJ; eauto.
Qed.

Lemma lists_ext : forall its fr cs Ls Ls' F, lists max its fr cs Ls F ->
  (forall j, Ls' j = Ls j) -> lists max its fr cs Ls' F.
Proof.
  intros its fr cs Ls Ls' F I E. constructor; intros; rewrite ?E in *.
  - eapply l_chain; eauto.
  - eapply l_free; eauto.
  - eapply l_nodup; eauto.
  - eapply l_fnodup; eauto.
  - eapply (@l_disj _ _ _ _ _ _ I j k); eauto.
  - eapply l_fdisj; eauto.
  - eapply l_bound; eauto.
  - eapply l_fbound; eauto.
  - eapply l_use; eauto.
  - eapply l_fuse; eauto.
Qed.

Lemma free_empty : forall s Ls F, dinv max s Ls F -> (F = [] <-> freel s = None).
Proof.
  intros s Ls F I. pose proof (l_free (i_lists I)) as C. split; intros E.
  - subst. inversion C. reflexivity.
  - rewrite E in C. now apply chain_none in C.
Qed.

Lemma contents_split : forall s Ls c r1 i r2, Ls c = r1 ++ i :: r2 ->
  contents s Ls c = map content (map (items s) r1) ++ content (items s i) :: map content (map (items s) r2).
Proof. intros s Ls c r1 i r2 E. unfold contents. rewrite E, !map_app. reflexivity. Qed.

(** What finish reports. *)
Definition code (cl : cell) (dis : option ditem) (ok1 ok2 : bool) : Z :=
  match c_owner cl with
  | None => -1
  | Some _ => if match dis with None => ok1 | Some _ => ok2 end then 0 else -1
  end%Z.
Definition reports (cl : cell) (k : key) (x : ditem) (R : list ditem) (dis : option ditem)
  : list dobs :=
  match c_owner cl with
  | None => []
  | Some ar => DAlarm ar k x :: DIndicator ar (is_problem (x :: R))
               :: match dis with
                  | Some old => [DAlarm ar k (set_spec sp_dis_others old)]
                  | None => []
                  end
  end.

Definition all_good (l : list ditem) : Prop := Forall (fun i => d_use i = true /\ good_item i) l.
Lemma good_items : forall s Ls F c l, dinv max s Ls F -> c < length (cells s) -> incl l (Ls c) ->
  all_good (map (items s) l).
Proof.
  intros s Ls F c l I Hc H. unfold all_good. rewrite Forall_map, Forall_forall. intros i Hi. split.
  - eapply l_use; [exact (i_lists I)|exact Hc|auto].
  - eapply i_good; eauto.
Qed.

(** The item found is stored again with contents x. *)
Lemma replace_step : forall s Ls F c r1 i r2 its head k x dis ok1 ok2,
  dinv max s Ls F -> c < length (cells s) ->
  let cl := nth c (cells s) dcell in c_use cl = true ->
  Ls c = r1 ++ i :: r2 -> (forall j, alike (its j) (items s j)) ->
  lists max its (freel s) (set_cell c (with_list head cl) (cells s)) (upd Ls c (r1 ++ r2)) F ->
  i < max -> d_use (its i) = true ->
  outside i (set_cell c (with_list head cl) (cells s)) (upd Ls c (r1 ++ r2)) F ->
  d_use x = true -> good_item x -> key_of (content x) = key_of (content (items s i)) ->
  let kk := key_of (content (items s i)) in
  exists s' Ls' R,
    finish max c i k (upd its i x) (freel s) (cells s) head cl dis ok1 ok2 =
      Some (s', code cl dis ok1 ok2, reports cl k (with_next head x) R dis) /\
    dinv max s' Ls' F /\
    effect s Ls s' Ls' c (content x :: filter (fun d => negb (has_key kk d)) (contents s Ls c)) /\
    map content R = filter (fun d => negb (has_key kk d)) (contents s Ls c) /\ all_good R /\
    S (length R) = length (contents s Ls c).
Proof.
  intros s Ls F c r1 i r2 its head k x dis ok1 ok2 I Hc cl Uc E Al L Hi Ui O Ux Gx Kx kk.
  assert (Inc : incl (r1 ++ r2) (Ls c)).
  { intros z Hz. rewrite E. rewrite in_app_iff in *. cbn. tauto. }
  pose proof (@i_uniq _ _ _ _ I c Hc) as N. fold (contents s Ls c) in N.
  rewrite (@contents_split s Ls c r1 i r2 E) in N. pose proof N as N0.
  rewrite map_app in N. cbn [map] in N.
  apply nodup_split in N. destruct N as [N1 N2]. rewrite <- map_app, <- !map_app in N1, N2.
  assert (Fl : filter (fun d => negb (has_key kk d)) (contents s Ls c)
               = map content (map (items s) (r1 ++ r2))).
  { rewrite (@contents_split s Ls c r1 i r2 E), filter_one; auto. now rewrite !map_app. }
  destruct (@finish_step s Ls F c i k its (freel s) head x (r1 ++ r2) F dis ok1 ok2)
    as (s' & Ls' & Q & I' & Ef); auto.
  - now rewrite Kx.
  - exists s', Ls', (map (items s) (r1 ++ r2)). rewrite Fl.
    split; [exact Q|]. split; [exact I'|]. split; [exact Ef|]. split; [reflexivity|].
    split; [eapply good_items; eauto|]. unfold contents. rewrite E, !map_length, !app_length. cbn. lia.
Qed.

(** ** Adding *)
Lemma add_step : forall s Ls F c src bits sev err ext addv qual usi len data ok1 ok2,
  dinv max s Ls F -> find_cell (s_key src) (cells s) = Some c ->
  proper (CAdd src bits sev err ext addv qual usi len data ok1 ok2) ->
  acceptable maxm src sev err ext addv qual usi len data ->
  let k := named src err ext usi in
  let new := described src bits sev err ext addv qual usi len data in
  let cl := nth c (cells s) dcell in
  let rest := filter (fun d => negb (has_key k d)) (contents s Ls c) in
  (In k (map key_of (contents s Ls c)) \/ F <> [] /\ ~ In k (map key_of (contents s Ls c)) ->
   exists s' Ls' F' x R old,
     diag_add max maxm src bits sev err ext addv qual usi len data ok1 ok2 s =
       Some (s', code cl old ok1 ok2, reports cl (s_key src) x R old) /\
     content x = new /\ d_use x = true /\ good_item x /\ map content R = rest /\ all_good R /\
     match old with
     | Some o => d_use o = true /\ In (content o) (contents s Ls c) /\ key_of (content o) = k
                 /\ (32768 <= d_usi o)%Z
     | None => In k (map key_of (contents s Ls c)) -> (usi < 32768)%Z
     end /\
     dinv max s' Ls' F' /\ effect s Ls s' Ls' c (new :: rest) /\
     length F' + S (length rest) = length F + length (contents s Ls c))
  /\ (~ In k (map key_of (contents s Ls c)) -> F = [] ->
      diag_add max maxm src bits sev err ext addv qual usi len data ok1 ok2 s = Some (s, -1, [])%Z).
Proof.
  intros s Ls F c src bits sev err ext addv qual usi len data ok1 ok2 I Fc P A k new cl rest.
  destruct (find_cell_some _ _ Fc) as (Hc & Uc & _). fold cl in Uc.
  destruct P as [(Sr & Bi & Se & Qu) Bl]. cbn in Bl.
  assert (Rg : in_range bits (s_group src) sev (s_dir src)).
  { destruct Sr as (G1 & G2 & _). unfold in_range. lia. }
  assert (Ac : acceptable_key src err ext usi) by apply A.
  assert (Ru : (0 <= usi <= 32771)%Z).
  { destruct Sr as (_ & _ & G & _). destruct Ac as (G' & _). unfold usi_known in G'. lia. }
  assert (V : add_valid maxm src sev err ext addv (Z.land qual (Z.lnot 7)) usi len data = true)
    by now apply add_valid_iff.
  assert (Nk : key_of new = k) by now apply described_key.
  unfold diag_add. cbv zeta. rewrite V. cbn [negb]. rewrite Fc.
  change (cell_at c s) with cl.
  destruct (@search s Ls F c src err ext usi I Hc Sr Ac) as [[Ab Q]|H].
  - fold k in Ab. fold cl in Q. rewrite Q. split.
    + intros [H|[H _]]; [destruct (Ab H)|].
      destruct F as [|i F]; [congruence|].
      set (b := mkItem true (Some 0) 0 std0 []).
      destruct (@lists_alloc _ _ _ _ _ _ _ b (i_lists I) eq_refl) as (Efr & Hi & L & O).
      rewrite Efr. cbn [new_diag].
      set (x := fill_item src bits sev err ext addv (Z.land qual (Z.lnot 7)) usi len data
                  (upd (items s) i (mkItem true (Some 0) 0 std0 []) i)).
      assert (Ux : d_use x = true).
      { unfold x, fill_item. rewrite upd_same. destruct (usi <? usi_channel)%Z; reflexivity. }
      assert (Gx : good_item x) by now apply fill_good.
      assert (Cx : content x = new) by now apply fill_content.
      assert (Lx : forall j, upd Ls c (Ls c) j = Ls j).
      { intros j. unfold upd. destruct (Nat.eqb_spec j c); congruence. }
      destruct (@finish_step s Ls (i :: F) c i (s_key src) (upd (items s) i b) (d_next (items s i)) (c_list cl) x
                  (Ls c) F None ok1 ok2) as (s' & Ls' & Q' & I' & Ef); auto.
      * eapply lists_ext; [|exact Lx]. eapply lists_cells; [exact L|apply set_cell_length|].
        intros j Hj. destruct (Nat.eq_dec j c) as [->|D];
          [now rewrite nth_set_same|now rewrite nth_set_other].
      * destruct O as [O1 O2]. split; auto. rewrite set_cell_length. intros j Hj. rewrite Lx. auto.
      * intros j z Hj Hz. rewrite Lx in Hz. rewrite upd_other; [apply alike_refl|].
        intros ->. destruct O as [_ O2]. exact (O2 j Hj Hz).
      * apply incl_refl.
      * eapply i_uniq; eauto.
      * fold (contents s Ls c). rewrite Cx, Nk. exact Ab.
      * assert (Er : rest = contents s Ls c) by (unfold rest; now apply filter_none).
        exists s', Ls', F, (with_next (c_list cl) x), (map (items s) (Ls c)), None.
        split; [exact Q'|]. rewrite Er.
        split; [exact Cx|]. split; [exact Ux|].
        split; [eapply good_alike; [apply alike_next|exact Gx]|].
        split; [reflexivity|]. split; [eapply good_items; eauto; apply incl_refl|].
        split; [intros Y; destruct (Ab Y)|]. split; [exact I'|].
        split; [rewrite Cx in Ef; exact Ef|]. cbn [length]. lia.
    + intros _ Fe. apply (free_empty I) in Fe. rewrite Fe. reflexivity.
  - fold cl in H. destruct H as (r1 & i & r2 & its & head & E & Ki & Q & C & Ei & Al & L & Hi & Ui & O).
    rewrite Q. fold k in Ki.
    assert (In1 : In (content (items s i)) (contents s Ls c)).
    { rewrite (@contents_split s Ls c r1 i r2 E), in_app_iff. cbn. auto. }
    split.
    + intros _.
      set (x := fill_item src bits sev err ext addv (Z.land qual (Z.lnot 7)) usi len data (its i)).
      assert (Ux : d_use x = true).
      { unfold x, fill_item. destruct (usi <? usi_channel)%Z; exact Ui. }
      assert (Gx : good_item x) by now apply fill_good.
      assert (Cx : content x = new) by now apply fill_content.
      destruct (@replace_step s Ls F c r1 i r2 its head (s_key src) x (if_std (its i)) ok1 ok2)
        as (s' & Ls' & R & Q' & I' & Ef & Mr & Gr & Ct); auto.
      * now rewrite Cx, Nk, Ki.
      * rewrite Ki in *.
        exists s', Ls', F, (with_next head x), R, (if_std (its i)).
        split; [exact Q'|]. split; [exact Cx|]. split; [exact Ux|].
        split; [eapply good_alike; [apply alike_next|exact Gx]|].
        split; [exact Mr|]. split; [exact Gr|].
        split.
        { unfold if_std. change usi_channel with 32768%Z. rewrite Ei.
          destruct (Z.leb_spec 32768 (d_usi (items s i))) as [Ul|Ul].
          - repeat split; auto. rewrite <- Ei. exact Ui.
          - intros _. unfold k, named in Ki. unfold content in Ki.
            destruct (Z.ltb_spec (d_usi (items s i)) 32768) as [_|]; [|lia]. cbn in Ki.
            destruct (Z.ltb_spec usi 32768); [lia|discriminate]. }
        split; [exact I'|]. split; [rewrite Cx in Ef; exact Ef|].
        unfold rest. rewrite <- Mr, map_length. lia.
    + intros Ab. exfalso. apply Ab. apply in_map_iff. eauto.
Qed.

(** ** Updating *)
Lemma update_step : forall s Ls F c src err ext addv usi len data ok1 ok2,
  dinv max s Ls F -> find_cell (s_key src) (cells s) = Some c ->
  src_ok src usi -> acceptable_update maxm src err ext addv usi len data ->
  let k := named src err ext usi in
  let cl := nth c (cells s) dcell in
  let rest := filter (fun d => negb (has_key k d)) (contents s Ls c) in
  (forall d, In d (contents s Ls c) -> key_of d = k ->
   exists s' Ls' x R old,
     diag_update max maxm src err ext addv usi len data ok1 ok2 s =
       Some (s', code cl old ok1 ok2, reports cl (s_key src) x R old) /\
     content x = updated addv len data d /\ d_use x = true /\ good_item x /\
     map content R = rest /\ all_good R /\
     match old with
     | Some o => d_use o = true /\ content o = d /\ (32768 <= d_usi o)%Z
     | None => (usi < 32768)%Z
     end /\
     dinv max s' Ls' F /\ effect s Ls s' Ls' c (updated addv len data d :: rest) /\
     S (length rest) = length (contents s Ls c))
  /\ (~ In k (map key_of (contents s Ls c)) ->
      diag_update max maxm src err ext addv usi len data ok1 ok2 s = Some (s, -1, [])%Z).
Proof.
  intros s Ls F c src err ext addv usi len data ok1 ok2 I Fc Sr A k cl rest.
  destruct (find_cell_some _ _ Fc) as (Hc & Uc & _). fold cl in Uc.
  assert (Ac : acceptable_key src err ext usi) by apply A.
  assert (V : update_valid maxm src err ext addv usi len data = true) by now apply update_valid_iff.
  unfold diag_update. rewrite V. cbn [negb]. rewrite Fc. cbv zeta. change (cell_at c s) with cl.
  destruct (@search s Ls F c src err ext usi I Hc Sr Ac) as [[Ab Q]|H].
  - fold k in Ab. fold cl in Q. rewrite Q. split; [|reflexivity].
    intros d Hd Kd. exfalso. apply Ab. apply in_map_iff. eauto.
  - fold cl in H. destruct H as (r1 & i & r2 & its & head & E & Ki & Q & C & Ei & Al & L & Hi & Ui & O).
    rewrite Q. fold k in Ki.
    assert (Hi1 : In i (Ls c)) by (rewrite E, in_app_iff; cbn; auto).
    assert (Gi : good_item (its i)) by (rewrite Ei; eapply i_good; eauto).
    assert (In1 : In (content (items s i)) (contents s Ls c)).
    { rewrite (@contents_split s Ls c r1 i r2 E), in_app_iff. cbn. auto. }
    split.
    + intros d Hd Kd.
      assert (Ed : content (items s i) = d).
      { pose proof (@i_uniq _ _ _ _ I c Hc) as N. fold (contents s Ls c) in N.
        apply (@NoDup_map_inv _ _ key_of) in N as N'.
        destruct (in_split _ _ Hd) as (l1 & l2 & El). rewrite El in *.
        apply in_app_iff in In1. destruct In1 as [In1|[In1|In1]]; auto; exfalso;
        rewrite map_app in N; cbn [map] in N; apply nodup_split in N; destruct N as [N _];
        apply N; rewrite in_app_iff, Kd, <- Ki; [left|right]; now apply in_map. }
      set (x := refresh_item addv len data (its i)).
      assert (Ux : d_use x = true).
      { unfold x, refresh_item. destruct (d_usi (its i) <? usi_channel)%Z; exact Ui. }
      assert (Gx : good_item x) by now apply refresh_good.
      assert (Cx : content x = updated addv len data d).
      { unfold x. rewrite refresh_content by auto. rewrite Ei. congruence. }
      destruct (@replace_step s Ls F c r1 i r2 its head (s_key src) x (if_std (its i)) ok1 ok2)
        as (s' & Ls' & R & Q' & I' & Ef & Mr & Gr & Ct); auto.
      * rewrite Cx, updated_key. congruence.
      * rewrite Ki in *.
        exists s', Ls', (with_next head x), R, (if_std (its i)).
        split; [exact Q'|]. split; [exact Cx|]. split; [exact Ux|].
        split; [eapply good_alike; [apply alike_next|exact Gx]|].
        split; [exact Mr|]. split; [exact Gr|].
        split.
        { unfold if_std. change usi_channel with 32768%Z. rewrite Ei.
          destruct (Z.leb_spec 32768 (d_usi (items s i))) as [Ul|Ul].
          - repeat split; auto. rewrite <- Ei. exact Ui.
          - unfold k, named in Ki. unfold content in Ki.
            destruct (Z.ltb_spec (d_usi (items s i)) 32768) as [_|]; [|lia]. cbn in Ki.
            destruct (Z.ltb_spec usi 32768); [lia|discriminate]. }
        split; [exact I'|]. split; [rewrite Cx in Ef; exact Ef|].
        unfold rest. rewrite <- Mr, map_length. lia.
    + intros Ab. exfalso. apply Ab. apply in_map_iff. eauto.
Qed.

(** ** Removing *)
Lemma gone_use : forall last i, d_use (gone_item last i) = d_use i.
Proof.
  intros last i. unfold gone_item. destruct last; [reflexivity|].
  destruct (usi_channel <=? d_usi i)%Z; reflexivity.
Qed.

Definition gone_report (ar : nat) (k : key) (usi : Z) (x : ditem) (last : bool) : dobs :=
  if (usi_channel <=? usi)%Z then DAlarm ar k (gone_item last x) else DGone ar k usi.

Lemma remove_step : forall s Ls F c src err ext usi ok,
  dinv max s Ls F -> find_cell (s_key src) (cells s) = Some c ->
  src_ok src usi -> acceptable_key src err ext usi ->
  let k := named src err ext usi in
  let cl := nth c (cells s) dcell in
  let rest := filter (fun d => negb (has_key k d)) (contents s Ls c) in
  (forall d, In d (contents s Ls c) -> key_of d = k ->
   exists s' Ls' F' x R,
     diag_remove max src err ext usi ok s =
       Some (s', match c_owner cl with None => -1 | Some _ => if ok then 0 else -1 end%Z,
             match c_owner cl with
             | None => []
             | Some ar => [gone_report ar (s_key src) usi x
                             match rest with [] => true | _ => false end;
                           DIndicator ar (is_problem R)]
             end) /\
     content x = d /\ map content R = rest /\ all_good R /\
     dinv max s' Ls' F' /\ effect s Ls s' Ls' c rest /\
     length F' = S (length F) /\ S (length rest) = length (contents s Ls c))
  /\ (~ In k (map key_of (contents s Ls c)) ->
      diag_remove max src err ext usi ok s = Some (s, -1, [])%Z).
Proof.
  intros s Ls F c src err ext usi ok I Fc Sr Ac k cl rest.
  destruct (find_cell_some _ _ Fc) as (Hc & Uc & _). fold cl in Uc.
  assert (V : remove_valid src err ext usi = true) by now apply remove_valid_iff.
  unfold diag_remove. rewrite V. cbn [negb]. rewrite Fc. cbv zeta. change (cell_at c s) with cl.
  destruct (@search s Ls F c src err ext usi I Hc Sr Ac) as [[Ab Q]|H].
  - fold k in Ab. fold cl in Q. rewrite Q. split; [|reflexivity].
    intros d Hd Kd. exfalso. apply Ab. apply in_map_iff. eauto.
  - fold cl in H. destruct H as (r1 & i & r2 & its & head & E & Ki & Q & C & Ei & Al & L & Hi & Ui & O).
    rewrite Q. fold k in Ki.
    assert (In1 : In (content (items s i)) (contents s Ls c)).
    { rewrite (@contents_split s Ls c r1 i r2 E), in_app_iff. cbn. auto. }
    split; [|intros Ab; exfalso; apply Ab, in_map_iff; eauto].
    intros d Hd Kd.
    pose proof (@i_uniq _ _ _ _ I c Hc) as N. fold (contents s Ls c) in N.
    assert (Ed : content (items s i) = d).
    { destruct (in_split _ _ Hd) as (l1 & l2 & El). rewrite El in *.
      apply in_app_iff in In1. destruct In1 as [In1|[In1|In1]]; auto; exfalso;
      rewrite map_app in N; cbn [map] in N; apply nodup_split in N; destruct N as [N _];
      apply N; rewrite in_app_iff, Kd, <- Ki; [left|right]; now apply in_map. }
    rewrite (@contents_split s Ls c r1 i r2 E) in N.
    assert (Er : rest = map content (map (items s) (r1 ++ r2))).
    { unfold rest. rewrite (@contents_split s Ls c r1 i r2 E), filter_one; auto. now rewrite !map_app. }
    rewrite map_app in N. cbn [map] in N. apply nodup_split in N. destruct N as [_ N2].
    rewrite <- map_app, <- !map_app in N2.
    set (last := match head with None => true | Some _ => false end).
    set (cs1 := set_cell c (with_list head cl) (cells s)) in *.
    set (its1 := match c_owner cl with
                 | Some _ => upd its i (gone_item last (its i)) | None => its end).
    assert (Ni : ~ In i (r1 ++ r2)).
    { destruct O as [_ O2]. specialize (O2 c). unfold cs1 in O2. rewrite set_cell_length in O2.
      specialize (O2 Hc). now rewrite upd_same in O2. }
    assert (S1 : forall z, z <> i -> its1 z = its z).
    { intros z D. unfold its1. destruct (c_owner cl); auto. now rewrite upd_other. }
    assert (U1 : d_use (its1 i) = true).
    { unfold its1. destruct (c_owner cl); auto. rewrite upd_same, gone_use. exact Ui. }
    assert (L1 : lists max its1 (freel s) cs1 (upd Ls c (r1 ++ r2)) F).
    { unfold its1. destruct (c_owner cl); [|exact L].
      apply lists_change; auto. now rewrite gone_use. }
    set (x2 := mkItem false (freel s) (d_usi (its1 i)) (d_std (its1 i)) (d_data (its1 i))).
    pose proof (@lists_free _ _ _ _ _ i F x2 L1 O Hi eq_refl eq_refl) as L2.
    set (its2 := upd its1 i x2) in *.
    assert (S2 : forall z, z <> i -> its2 z = its z).
    { intros z D. unfold its2. rewrite upd_other; auto. }
    assert (M1 : map its1 (r1 ++ r2) = map its (r1 ++ r2)).
    { apply map_ext_in. intros z Hz. apply S1. intros ->. auto. }
    assert (M2 : map its2 (r1 ++ r2) = map its (r1 ++ r2)).
    { apply map_ext_in. intros z Hz. apply S2. intros ->. auto. }
    assert (Inc : incl (r1 ++ r2) (Ls c)).
    { intros z Hz. rewrite E. rewrite in_app_iff in *. cbn. tauto. }
    assert (Lb : length (r1 ++ r2) <= S max).
    { pose proof (@len_bound _ _ _ _ _ _ c (i_lists I) Hc) as B. rewrite E in B.
      rewrite app_length in *. cbn in B. lia. }
    assert (C1 : chain its1 head (r1 ++ r2)).
    { eapply chain_frame; [exact C|]. intros z Hz. rewrite S1; auto. intros ->. auto. }
    assert (C2 : chain its2 head (r1 ++ r2)).
    { eapply chain_frame; [exact C|]. intros z Hz. rewrite S2; auto. intros ->. auto. }
    rewrite (@walk_items_chain max its1 head _ C1 Lb), M1. cbn [free_diag].
    fold x2. fold its2.
    set (cl' := with_sum (summarize (map its (r1 ++ r2))) (with_list head cl)).
    set (s' := mkD its2 (Some i) (set_cell c cl' (cells s))).
    set (Ls' := upd Ls c (r1 ++ r2)) in *.
    assert (LsJ : forall j, j <> c -> Ls' j = Ls j) by (intros j D; unfold Ls'; now rewrite upd_other).
    assert (LsC : Ls' c = r1 ++ r2) by (unfold Ls'; now rewrite upd_same).
    assert (Nij : forall j, j < length (cells s) -> j <> c -> ~ In i (Ls j)).
    { intros j Hj D. destruct O as [_ O2]. specialize (O2 j). unfold cs1 in O2.
      rewrite set_cell_length in O2. specialize (O2 Hj). now rewrite LsJ in O2. }
    assert (AlC : forall z, In z (r1 ++ r2) -> alike (its2 z) (items s z)).
    { intros z Hz. rewrite S2; auto. intros ->. auto. }
    assert (AlJ : forall j z, j < length (cells s) -> j <> c -> In z (Ls j) -> alike (its2 z) (items s z)).
    { intros j z Hj D Hz. rewrite S2; auto. intros ->. exact (Nij j Hj D Hz). }
    assert (Sm : same_cells s s') by now apply same_cells_set.
    assert (Last : last = match rest with [] => true | _ => false end).
    { rewrite Er. unfold last. destruct (r1 ++ r2) as [|z r] eqn:Er2.
      - inversion C1. reflexivity.
      - apply chain_head in C1. destruct C1 as [-> _]. reflexivity. }
    exists s', Ls', (i :: F), (its i), (map (items s) (r1 ++ r2)).
    split.
    { destruct (c_owner cl) as [ar|] eqn:Ow; [|reflexivity].
      rewrite (@walk_items_chain max its2 head _ C2 Lb), M2. unfold gone_report.
      rewrite <- Last.
      assert (Ex : its1 i = gone_item last (its i)) by (unfold its1; apply upd_same).
      rewrite Ex. rewrite (@problem_alike (items s) its); [reflexivity|]. intros; apply Al. }
    split; [rewrite Ei; exact Ed|]. split; [now rewrite Er|]. split; [eapply good_items; eauto|].
    split; [|split; [|split]].
    + constructor; cbn [s' items freel cells]; rewrite ?set_cell_length.
      * eapply lists_cells; [exact L2| |]; unfold cs1; rewrite !set_cell_length; auto.
        intros j Hj. destruct (Nat.eq_dec j c) as [->|D].
        -- now rewrite !nth_set_same by auto.
        -- now rewrite !nth_set_other by auto.
      * intros j z Hj Hz. destruct (Nat.eq_dec j c) as [->|D].
        -- rewrite LsC in Hz. eapply good_alike; [apply AlC; auto|]. eapply i_good; eauto.
        -- rewrite LsJ in Hz by auto. eapply good_alike; [eapply AlJ; eauto|]. eapply i_good; eauto.
      * intros j z W1 W2 K. destruct Sm as (_ & Y1 & Y2 & _). cbn [s' cells] in Y1, Y2.
        rewrite Y1 in W1, W2. rewrite !Y2 in K. eapply i_keys; eauto.
      * intros j Hj. destruct (Nat.eq_dec j c) as [->|D].
        -- rewrite LsC, (map_content_alike _ _ _ AlC). exact N2.
        -- rewrite LsJ by auto. rewrite (@map_content_alike (items s) its2 (Ls j)); [eapply i_uniq; eauto|].
           intros z Hz. eapply AlJ; eauto.
      * intros j U. destruct (Nat.eq_dec j c) as [->|D].
        -- rewrite nth_set_same by auto. rewrite LsC, M2. reflexivity.
        -- rewrite nth_set_other in * by auto. rewrite LsJ by auto.
           destruct (Nat.lt_ge_cases j (length (cells s))) as [Hj|Hj].
           ++ rewrite (@summarize_alike (items s) its2 (Ls j)); [eapply i_sum; eauto|].
              intros z Hz. eapply AlJ; eauto.
           ++ rewrite nth_overflow in U by auto. discriminate.
    + constructor; auto.
      * unfold contents. cbn [s' items]. rewrite LsC, (map_content_alike _ _ _ AlC). now rewrite Er.
      * intros j Hj D. unfold contents. cbn [s' items]. rewrite LsJ by auto.
        apply map_content_alike. intros z Hz. eapply AlJ; eauto.
    + reflexivity.
    + rewrite Er. unfold contents. rewrite E, !map_length, !app_length. cbn. lia.
Qed.

(** ** Other calls *)
Lemma plug_step : forall s Ls F c k, dinv max s Ls F ->
  exists s' r Ls', dstep max maxm (CPlug c k) s = Some (s', r, []) /\ dinv max s' Ls' F /\
    ((s' = s /\ Ls' = Ls /\ r = -1)%Z \/
     find_cell k (cells s) = None /\ c < length (cells s) /\ c_use (nth c (cells s) dcell) = false /\
     Ls' = upd Ls c [] /\ s' = mkD (items s) (freel s) (set_cell c (mkCell true k None None sum0) (cells s))).
Proof.
  intros s Ls F c k I. cbn [dstep]. destruct (find_cell k (cells s)) eqn:Fc.
  { exists s, (-1)%Z, Ls. split; [reflexivity|]. split; [exact I|]. left. auto. }
  change (cell_at c s) with (nth c (cells s) dcell).
  destruct ((c <? length (cells s)) && negb (c_use (nth c (cells s) dcell))) eqn:E.
  2:{ exists s, (-1)%Z, Ls. split; [reflexivity|]. split; [exact I|]. left. auto. }
  apply andb_true_iff in E. destruct E as [Hc U]. apply Nat.ltb_lt in Hc. apply negb_true_iff in U.
  eexists _, _, (upd Ls c []). split; [reflexivity|]. split; [|right; auto].
  destruct I as [L G K Un Su].
  assert (Sub : forall j z, In z (upd Ls c [] j) -> In z (Ls j) /\ j <> c).
  { intros j z. unfold upd. destruct (Nat.eqb_spec j c); [intros []|auto]. }
  constructor; cbn [items freel cells]; rewrite ?set_cell_length.
  - constructor; rewrite ?set_cell_length; intros.
    + destruct (Nat.eq_dec j c) as [->|D].
      * rewrite nth_set_same, upd_same by auto. constructor.
      * rewrite nth_set_other, upd_other by auto. eapply l_chain; eauto.
    + eapply l_free; eauto.
    + destruct (Nat.eq_dec j c) as [->|D].
      * rewrite upd_same. constructor.
      * rewrite upd_other by auto. eapply l_nodup; eauto.
    + eapply l_fnodup; eauto.
    + intros Q. apply Sub in H2. apply Sub in Q. exact (@l_disj _ _ _ _ _ _ L j k0 i H H0 H1 (proj1 H2) (proj1 Q)).
    + apply Sub in H0. eapply l_fdisj; eauto. tauto.
    + apply Sub in H0. eapply l_bound; eauto. tauto.
    + eapply l_fbound; eauto.
    + apply Sub in H0. eapply l_use; eauto. tauto.
    + eapply l_fuse; eauto.
  - intros j z Hj Hz. apply Sub in Hz. eapply G; eauto. tauto.
  - intros j z U1 U2. destruct (Nat.eq_dec j c) as [->|D1]; destruct (Nat.eq_dec z c) as [->|D2]; auto.
    + rewrite nth_set_same in * by auto. rewrite nth_set_other in * by auto. cbn [c_key].
      intros Q. symmetry in Q. destruct (@find_cell_none _ _ Fc _ U2 Q).
    + rewrite (@nth_set_same c) in * by auto. rewrite nth_set_other in * by auto. cbn [c_key].
      intros Q. destruct (@find_cell_none _ _ Fc _ U1 Q).
    + rewrite !nth_set_other in * by auto. auto.
  - intros j Hj. destruct (Nat.eq_dec j c) as [->|D].
    + rewrite upd_same. constructor.
    + rewrite upd_other by auto. auto.
  - intros j Uj. destruct (Nat.eq_dec j c) as [->|D].
    + rewrite nth_set_same, upd_same by auto. reflexivity.
    + rewrite nth_set_other, upd_other in * by auto. auto.
Qed.

(** A change of a cell that keeps list, address and summary and does not
    bring it into use. *)
Lemma cell_step : forall s Ls F c x, dinv max s Ls F ->
  let o := nth c (cells s) dcell in
  c_list x = c_list o -> c_key x = c_key o -> c_sum x = c_sum o ->
  (c_use x = true -> c_use o = true) ->
  dinv max (mkD (items s) (freel s) (set_cell c x (cells s))) Ls F.
Proof.
  intros s Ls F c x I o E1 E2 E3 E4.
  destruct (Nat.lt_ge_cases c (length (cells s))) as [Hc|Hc].
  2:{ rewrite set_cell_out by auto. destruct s; exact I. }
  destruct I as [L G K Un Su]. constructor; cbn [items freel cells]; rewrite ?set_cell_length; auto.
  - eapply lists_cells; [exact L|apply set_cell_length|]. intros j Hj.
    destruct (Nat.eq_dec j c) as [->|D]; [rewrite nth_set_same by auto; exact E1|now rewrite nth_set_other].
  - assert (V : forall j, c_use (nth j (set_cell c x (cells s)) dcell) = true ->
                  c_use (nth j (cells s) dcell) = true /\
                  c_key (nth j (set_cell c x (cells s)) dcell) = c_key (nth j (cells s) dcell)).
    { intros j. destruct (Nat.eq_dec j c) as [->|D]; [rewrite nth_set_same by auto; auto|].
      rewrite nth_set_other by auto. auto. }
    intros j z U1 U2 Q. apply V in U1. apply V in U2. destruct U1 as [U1 K1], U2 as [U2 K2].
    apply K; auto. congruence.
  - intros j. destruct (Nat.eq_dec j c) as [->|D].
    + rewrite nth_set_same by auto. intros U. rewrite E3. apply Su. auto.
    + rewrite nth_set_other by auto. auto.
Qed.

(** ** All calls *)
Lemma reject_key : forall src err ext usi, acceptable_key src err ext usi \/ ~ acceptable_key src err ext usi.
Proof.
  intros. destruct (remove_valid src err ext usi) eqn:V.
  - left. now apply remove_valid_iff.
  - right. rewrite <- remove_valid_iff. congruence.
Qed.

Lemma contents_key_dec : forall k (l : list diag), In k (map key_of l) \/ ~ In k (map key_of l).
Proof. intros k l. destruct (in_dec dkey_eq_dec k (map key_of l)); auto. Qed.

Lemma step_inv : forall s Ls F x, dinv max s Ls F -> proper x ->
  exists s' r os Ls' F', dstep max maxm x s = Some (s', r, os) /\ dinv max s' Ls' F' /\
    length (cells s') = length (cells s).
Proof.
  intros s Ls F x I P. destruct x as [src bits sev err ext addv qual usi len data ok1 ok2|
    src err ext addv usi len data ok1 ok2|src err ext usi ok|c k|k|c o].
  - cbn [dstep]. destruct (add_valid maxm src sev err ext addv (Z.land qual (Z.lnot 7)) usi len data) eqn:V.
    2:{ unfold diag_add. cbv zeta. rewrite V. exists s, (-1)%Z, [], Ls, F. auto. }
    destruct (find_cell (s_key src) (cells s)) as [c|] eqn:Fc.
    2:{ unfold diag_add. cbv zeta. rewrite V, Fc. exists s, (-1)%Z, [], Ls, F. auto. }
    apply add_valid_iff in V.
    destruct (@add_step s Ls F c src bits sev err ext addv qual usi len data ok1 ok2 I Fc P V) as [A B].
    destruct (contents_key_dec (named src err ext usi) (contents s Ls c)) as [K|K].
    + destruct (A (or_introl K)) as (s' & Ls' & F' & x & R & old & Q & _ & _ & _ & _ & _ & _ & I' & Ef & _).
      exists s'. do 2 eexists. exists Ls', F'. split; [exact Q|]. split; [exact I'|]. apply (e_cells Ef).
    + destruct F as [|i F].
      * rewrite (B K eq_refl). exists s, (-1)%Z, [], Ls, []. auto.
      * destruct A as (s' & Ls' & F' & x & R & old & Q & _ & _ & _ & _ & _ & _ & I' & Ef & _).
        { right. split; [discriminate|exact K]. }
        exists s'. do 2 eexists. exists Ls', F'. split; [exact Q|]. split; [exact I'|]. apply (e_cells Ef).
  - cbn [dstep]. destruct (update_valid maxm src err ext addv usi len data) eqn:V.
    2:{ unfold diag_update. rewrite V. exists s, (-1)%Z, [], Ls, F. auto. }
    destruct (find_cell (s_key src) (cells s)) as [c|] eqn:Fc.
    2:{ unfold diag_update. rewrite V, Fc. exists s, (-1)%Z, [], Ls, F. auto. }
    apply update_valid_iff in V. destruct P as [P _].
    destruct (@update_step s Ls F c src err ext addv usi len data ok1 ok2 I Fc P V) as [A B].
    destruct (contents_key_dec (named src err ext usi) (contents s Ls c)) as [K|K].
    + apply in_map_iff in K. destruct K as (d & Kd & Hd).
      destruct (A d Hd Kd) as (s' & Ls' & x & R & old & Q & _ & _ & _ & _ & _ & _ & I' & Ef & _).
      exists s'. do 2 eexists. exists Ls', F. split; [exact Q|]. split; [exact I'|]. apply (e_cells Ef).
    + rewrite (B K). exists s, (-1)%Z, [], Ls, F. auto.
  - cbn [dstep]. destruct (remove_valid src err ext usi) eqn:V.
    2:{ unfold diag_remove. rewrite V. exists s, (-1)%Z, [], Ls, F. auto. }
    destruct (find_cell (s_key src) (cells s)) as [c|] eqn:Fc.
    2:{ unfold diag_remove. rewrite V, Fc. exists s, (-1)%Z, [], Ls, F. auto. }
    apply remove_valid_iff in V. destruct P as [P _].
    destruct (@remove_step s Ls F c src err ext usi ok I Fc P V) as [A B].
    destruct (contents_key_dec (named src err ext usi) (contents s Ls c)) as [K|K].
    + apply in_map_iff in K. destruct K as (d & Kd & Hd).
      destruct (A d Hd Kd) as (s' & Ls' & F' & x & R & Q & _ & _ & _ & I' & Ef & _).
      exists s'. do 2 eexists. exists Ls', F'. split; [exact Q|]. split; [exact I'|]. apply (e_cells Ef).
    + rewrite (B K). exists s, (-1)%Z, [], Ls, F. auto.
  - destruct (@plug_step s Ls F c k I) as (s' & r & Ls' & Q & I' & D).
    exists s', r, [], Ls', F. split; [exact Q|]. split; [exact I'|].
    destruct D as [(-> & _)|(_ & _ & _ & _ & ->)]; auto. apply set_cell_length.
  - cbn [dstep]. destruct (find_cell k (cells s)) as [c|] eqn:Fc.
    2:{ exists s, (-1)%Z, [], Ls, F. auto. }
    do 3 eexists. exists Ls, F. split; [reflexivity|]. split; [|apply set_cell_length].
    apply cell_step; auto. discriminate.
  - cbn [dstep]. do 3 eexists. exists Ls, F. split; [reflexivity|]. split; [|apply set_cell_length].
    apply cell_step; auto.
Qed.

(** ** Start *)
Lemma init_chain : forall m k, k + m = max -> k < max ->
  chain (init_items max) (Some k) (seq k m).
Proof.
  induction m as [|m IH]; intros k E L; [lia|]. cbn [seq]. constructor.
  cbn [init_items d_next]. destruct (Nat.ltb_spec (S k) max) as [H|H].
  - apply IH; lia.
  - replace m with 0 by lia. constructor.
Qed.

Lemma init_inv : forall n, 0 < max -> dinv max (dinit max n) (fun _ => []) (seq 0 max).
Proof.
  intros n H. unfold dinit.
  assert (Nd : forall j, nth j (repeat (mkCell false (0, 0, 0)%Z None None sum0) n) dcell = dcell).
  { intros j. change (mkCell false (0, 0, 0)%Z None None sum0) with dcell. apply nth_repeat. }
  constructor; cbn [items freel cells].
  - constructor; intros; cbn in *; try contradiction.
    + rewrite Nd. constructor.
    + apply init_chain; lia.
    + constructor.
    + apply seq_NoDup.
    + apply in_seq in H0. lia.
    + split; auto. intros _. apply in_seq. lia.
  - intros j i _ [].
  - intros j k U. rewrite Nd in U. discriminate.
  - intros j _. constructor.
  - intros j U. rewrite Nd in U. discriminate.
Qed.

Lemma reach_inv : forall n s, 0 < max -> dreach max maxm n proper s ->
  exists Ls F, dinv max s Ls F /\ length (cells s) = n.
Proof.
  intros n s H (xs & tr & P & R).
  assert (G : forall xs s0 tr0, Forall proper xs -> (exists Ls F, dinv max s0 Ls F /\ length (cells s0) = n) ->
    drun max maxm xs s0 tr0 = Some (s, tr) -> exists Ls F, dinv max s Ls F /\ length (cells s) = n).
  { clear xs P R. induction xs as [|x xs IH]; cbn [drun]; intros s0 tr0 P (Ls & F & I & L) R.
    - injection R as <- _. eauto.
    - inversion P; subst. destruct (@step_inv s0 Ls F x I) as (s' & r & os & Ls' & F' & Q & I' & L'); auto.
      rewrite Q in R. eapply IH; eauto. }
  eapply G; eauto. exists (fun _ => []), (seq 0 max). split; [now apply init_inv|].
  cbn. apply repeat_length.
Qed.
End Steps.
