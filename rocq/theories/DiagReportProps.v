(** Theorems about what the diagnosis store reports: C54 (reading), C55
    (alarms), and the cases in which C34, C35 and C54 do not hold. *)

From Coq Require Import List Arith Bool ZArith Lia Permutation Sorted.
From Verif Require Import Base DiagModel DiagLists DiagSpec DiagInv DiagSteps DiagProps.
Import ListNotations.
Set Implicit Arguments.
Open Scope nat_scope.

(** ** Listing by USI *)
Lemma next_fold : forall l low r0, let r := fold_left (fun r i =>
    if ((low <? d_usi i) && (d_usi i <? r))%Z then d_usi i else r) l r0 in
  (r <= r0)%Z /\ (r = r0 \/ (low < r)%Z /\ In r (map d_usi l)) /\
  forall i, In i l -> (low < d_usi i)%Z -> (r <= d_usi i)%Z.
Proof.
  induction l as [|a l IH]; intros low r0; cbn [fold_left map].
  - repeat split; auto; try lia. intros i [].
  - set (r1 := if ((low <? d_usi a) && (d_usi a <? r0))%Z then d_usi a else r0).
    assert (Hr1 : (r1 <= r0)%Z /\ (r1 = r0 \/ (low < r1)%Z /\ r1 = d_usi a) /\
                  ((low < d_usi a)%Z -> (r1 <= d_usi a)%Z)).
    { unfold r1. destruct (Z.ltb_spec low (d_usi a)); destruct (Z.ltb_spec (d_usi a) r0); cbn [andb]; lia. }
    clearbody r1. destruct Hr1 as (H1 & H2 & H3).
    destruct (IH low r1) as (A & B & C). cbv zeta.
    set (r := fold_left _ l r1) in *. clearbody r.
    split; [lia|]. split.
    + destruct B as [->|[B1 B2]]; [destruct H2 as [->|[H2 H4]]; auto; right; cbn; auto|].
      right. cbn. auto.
    + intros i [->|Hi] L; [specialize (H3 L); lia|auto].
Qed.

Lemma next_usi_spec : forall l low, (forall i, In i l -> d_usi i < 65535)%Z ->
  match next_usi l low with
  | None => forall i, In i l -> (d_usi i <= low)%Z
  | Some u => (low < u)%Z /\ In u (map d_usi l) /\
              forall i, In i l -> (low < d_usi i)%Z -> (u <= d_usi i)%Z
  end.
Proof.
  intros l low B. unfold next_usi.
  destruct (next_fold l low 65535) as (A1 & A2 & A3). cbv zeta in A1, A2, A3.
  set (r := fold_left _ l 65535%Z) in *. clearbody r. cbv zeta.
  destruct (Z.eqb_spec r 65535) as [->|D].
  - intros i Hi. specialize (A3 i Hi). specialize (B i Hi). lia.
  - destruct A2 as [->|[A2 A4]]; [congruence|]. auto.
Qed.

Definition above (low : Z) (l : list ditem) : list ditem := filter (fun i => (low <? d_usi i)%Z) l.

Lemma filter_le : forall (f g : ditem -> bool) l, (forall i, f i = true -> g i = true) ->
  length (filter f l) <= length (filter g l).
Proof.
  intros f g l H. induction l as [|a l IH]; cbn; auto. specialize (H a).
  destruct (f a); [rewrite (H eq_refl); cbn; lia|]. destruct (g a); cbn; lia.
Qed.
Lemma above_less : forall l low u, (low < u)%Z -> In u (map d_usi l) ->
  length (above u l) < length (above low l).
Proof.
  intros l low u L. unfold above. induction l as [|a l IH]; intros H; [destruct H|].
  destruct H as [H|H].
  - subst u. cbn. destruct (Z.ltb_spec (d_usi a) (d_usi a)); [lia|].
    destruct (Z.ltb_spec low (d_usi a)); [|lia]. cbn. apply Nat.lt_succ_r. apply filter_le.
    intros i. rewrite !Z.ltb_lt. lia.
  - specialize (IH H). cbn. destruct (Z.ltb_spec u (d_usi a)); destruct (Z.ltb_spec low (d_usi a)); cbn; try lia.
Qed.

Lemma listed_spec : forall fuel l low, (forall i, In i l -> d_usi i < 65535)%Z ->
  length (above low l) <= fuel ->
  exists us, listed_usis fuel l low = Some us /\ StronglySorted Z.lt us /\
    forall u, In u us <-> (low < u)%Z /\ In u (map d_usi l).
Proof.
  induction fuel as [|fuel IH]; intros l low B L; cbn [listed_usis];
    pose proof (@next_usi_spec l low B) as N; destruct (next_usi l low) as [u|].
  - exfalso. destruct N as (N1 & N2 & _). pose proof (@above_less l low u N1 N2). lia.
  - exists []. split; [reflexivity|]. split; [constructor|]. intros u. split; [intros []|].
    intros [H1 H2]. exfalso. apply in_map_iff in H2. destruct H2 as (i & <- & Hi). specialize (N i Hi). lia.
  - destruct N as (N1 & N2 & N3). pose proof (@above_less l low u N1 N2) as D.
    destruct (IH l u B) as (us & -> & S & M); [lia|].
    exists (u :: us). split; [reflexivity|]. split.
    + constructor; auto. rewrite Forall_forall. intros v Hv. now apply M in Hv.
    + intros v. split.
      * intros [<-|Hv]; auto. apply M in Hv. split; [lia|tauto].
      * intros [H1 H2]. apply in_map_iff in H2 as H3. destruct H3 as (i & <- & Hi).
        specialize (N3 i Hi H1). destruct (Z.eq_dec u (d_usi i)) as [->|Dv]; [cbn; auto|].
        right. apply M. split; auto. lia.
  - exists []. split; [reflexivity|]. split; [constructor|]. intros u. split; [intros []|].
    intros [H1 H2]. exfalso. apply in_map_iff in H2. destruct H2 as (i & <- & Hi). specialize (N i Hi). lia.
Qed.

Lemma filter_split : forall (l : list diag) u us, ~ In u us ->
  Permutation (filter (fun d => if in_dec Z.eq_dec (usi_of d) (u :: us) then true else false) l)
    (filter (fun d => (usi_of d =? u)%Z) l ++
     filter (fun d => if in_dec Z.eq_dec (usi_of d) us then true else false) l).
Proof.
  intros l u us N. induction l as [|d l IH]; [constructor|]. cbn [filter].
  destruct (Z.eqb_spec (usi_of d) u) as [E|E].
  - destruct (in_dec Z.eq_dec (usi_of d) (u :: us)) as [_|Q]; [|exfalso; apply Q; cbn; auto].
    destruct (in_dec Z.eq_dec (usi_of d) us) as [Q|_]; [congruence|]. cbn. now constructor.
  - destruct (in_dec Z.eq_dec (usi_of d) us) as [Q|Q].
    + destruct (in_dec Z.eq_dec (usi_of d) (u :: us)) as [_|Q']; [|exfalso; apply Q'; cbn; auto].
      eapply Permutation_trans; [constructor; exact IH|]. apply Permutation_middle.
    + destruct (in_dec Z.eq_dec (usi_of d) (u :: us)) as [[Q'|Q']|_]; auto; congruence.
Qed.
Lemma blocks_perm : forall (l : list diag) us, NoDup us ->
  Permutation (concat (map (fun u => filter (fun d => (usi_of d =? u)%Z) l) us))
    (filter (fun d => if in_dec Z.eq_dec (usi_of d) us then true else false) l).
Proof.
  intros l us. induction us as [|u us IH]; intros N.
  - cbn. induction l; cbn; auto.
  - apply NoDup_cons_iff in N. destruct N as [N1 N2]. cbn [map concat].
    eapply Permutation_trans; [|apply Permutation_sym, filter_split; exact N1].
    apply Permutation_app_head. auto.
Qed.

Lemma content_usi : forall i, usi_of (content i) = d_usi i.
Proof. intros i. unfold content. destruct (d_usi i <? 32768)%Z; reflexivity. Qed.

Lemma block_content : forall l u,
  map content (block_items l u) = filter (fun d => (usi_of d =? u)%Z) (map content l).
Proof.
  intros l u. unfold block_items. induction l as [|i l IH]; cbn; auto. rewrite content_usi.
  destruct (d_usi i =? u)%Z; cbn; now rewrite IH.
Qed.

Lemma sorted_nodup : forall us, StronglySorted Z.lt us -> NoDup us.
Proof.
  induction 1 as [|u us S IH F]; constructor; auto. intros H. rewrite Forall_forall in F.
  specialize (F u H). lia.
Qed.

Section Report.
Variable max : nat.
Variable maxm : Z.
Variable n : nat.
Hypothesis max_pos : 0 < max.
Notation reach := (dreach max maxm n proper).
Notation dstep := (dstep max maxm).
Notation stored := (stored max).

(** Reading the diagnosis of a sub-slot: one block for each USI in ascending
    order; the blocks contain each stored diagnosis with a USI above 0
    exactly once, and nothing else. *)
Theorem C54_listing_partial : forall s k c l, reach s -> stored s k = Some l ->
  find_cell k (cells s) = Some c ->
  exists its us, walk_items max (items s) (c_list (cell_at c s)) = Some its /\
    listed_usis max its 0 = Some us /\
    StronglySorted Z.lt us /\
    Permutation (concat (map (fun u => map content (block_items its u)) us))
      (filter (fun d => (0 <? usi_of d)%Z) l) /\
    forall u d, In d (map content (block_items its u)) -> usi_of d = u.
Proof.
  intros s k c l R H Fc. destruct (reach_inv max_pos R) as (Ls & F & I & _).
  destruct (@stored_some _ _ _ _ _ _ I H) as (c' & Fc' & ->). rewrite Fc in Fc'. injection Fc' as <-.
  destruct (find_cell_some _ _ Fc) as (Hc & _).
  pose proof (@len_bound _ _ _ _ _ _ c (i_lists I) Hc) as Lb.
  exists (map (items s) (Ls c)).
  assert (B : forall i, In i (map (items s) (Ls c)) -> (0 <= d_usi i <= 32771)%Z).
  { intros i Hi. apply in_map_iff in Hi. destruct Hi as (j & <- & Hj). eapply i_good; eauto. }
  destruct (@listed_spec max (map (items s) (Ls c)) 0) as (us & E & S & M).
  { intros i Hi. specialize (B i Hi). lia. }
  { unfold above. eapply Nat.le_trans; [|exact Lb].
    eapply Nat.le_trans; [apply (@filter_le _ (fun _ => true)); auto|].
    rewrite (map_length (items s) (Ls c)) at 1 || idtac.
    assert (G : forall q : list ditem, length (filter (fun _ => true) q) = length q) by (induction q; cbn; auto).
    rewrite G, map_length. auto. }
  exists us. split.
  { apply walk_items_chain; [apply (l_chain (i_lists I)); auto|lia]. }
  split; [exact E|]. split; [exact S|]. split.
  - erewrite map_ext; [|intros u; apply block_content].
    fold (contents s Ls c).
    eapply Permutation_trans; [apply blocks_perm, sorted_nodup, S|].
    assert (G : forall q, incl q (contents s Ls c) ->
      filter (fun d => if in_dec Z.eq_dec (usi_of d) us then true else false) q =
      filter (fun d => (0 <? usi_of d)%Z) q).
    { induction q as [|d q IHq]; intros Hq; auto. cbn [filter].
      rewrite IHq by (intros z Hz; apply Hq; cbn; auto).
      assert (Hd : In d (contents s Ls c)) by (apply Hq; cbn; auto).
      unfold contents in Hd. apply in_map_iff in Hd. destruct Hd as (i & <- & Hi).
      rewrite content_usi. destruct (in_dec Z.eq_dec (d_usi i) us) as [J|J].
      - apply M in J. destruct (Z.ltb_spec 0 (d_usi i)); auto. lia.
      - destruct (Z.ltb_spec 0 (d_usi i)); auto. exfalso. apply J, M. split; auto. now apply in_map. }
    rewrite G by apply incl_refl. apply Permutation_refl.
  - intros u d Hd. rewrite block_content in Hd. apply filter_In in Hd. destruct Hd as [_ Hd].
    now apply Z.eqb_eq in Hd.
Qed.

(** ** C55: alarms *)

(** Adding a diagnosis to an owned sub-slot announces it to the owner; if it
    replaces a standard one, that one is then announced to have disappeared
    with others remaining. *)
Lemma notice_old : forall o, good_item o -> (32768 <= d_usi o)%Z ->
  content (set_spec sp_dis_others o) = with_spec 3 (content o).
Proof.
  intros o [_ G] U. destruct (G U) as (P & _). destruct (good_spec P) as [Q _].
  unfold content, set_spec. cbn [d_usi d_std d_data].
  destruct (Z.ltb_spec (d_usi o) 32768); [lia|]. cbn [with_spec].
  change sp_dis_others with 3%Z. rewrite (Q 3%Z) by lia. reflexivity.
Qed.

Lemma content_good : forall d, (exists i, content i = d /\ good_item i) ->
  forall o, content o = d -> (32768 <= d_usi o)%Z -> good_item o.
Proof.
  intros d (i & <- & G) o E U. unfold good_item in *.
  pose proof (content_usi o) as Co. pose proof (content_usi i) as Ci. rewrite E in Co.
  assert (Eu : d_usi o = d_usi i) by congruence. rewrite Eu. rewrite E.
  destruct G as [G1 G2]. split; auto. intros V. specialize (G2 V).
  unfold content in E. destruct (Z.ltb_spec (d_usi o) 32768); [lia|].
  destruct (Z.ltb_spec (d_usi i) 32768); [lia|]. injection E as E1 E2. rewrite E2. exact G2.
Qed.

Lemma stored_good : forall s Ls F c d, dinv max s Ls F -> c < length (cells s) ->
  In d (contents s Ls c) -> exists i, content i = d /\ good_item i.
Proof.
  intros s Ls F c d I Hc H. unfold contents in H. rewrite map_map in H. apply in_map_iff in H.
  destruct H as (j & <- & Hj). exists (items s j). split; auto. eapply i_good; eauto.
Qed.

Definition replaced (k : dkey) (l : list diag) : option diag := find (has_key k) l.

Lemma replaced_some : forall k l d, NoDup (map key_of l) -> In d l -> key_of d = k ->
  replaced k l = Some d.
Proof.
  intros k l d. unfold replaced. induction l as [|a l IH]; intros N H K; [destruct H|].
  cbn [find]. destruct (has_key k a) eqn:E.
  - apply has_key_iff in E. destruct H as [->|H]; auto. exfalso.
    cbn in N. apply NoDup_cons_iff in N. destruct N as [N _]. apply N. rewrite E, <- K. now apply in_map.
  - destruct H as [->|H]; [apply has_key_iff in K; congruence|].
    apply IH; auto. cbn in N. now apply NoDup_cons_iff in N.
Qed.
Lemma replaced_none : forall k l, ~ In k (map key_of l) -> replaced k l = None.
Proof.
  intros k l. unfold replaced. induction l as [|a l IH]; intros N; auto. cbn [find].
  destruct (has_key k a) eqn:E.
  - apply has_key_iff in E. exfalso. apply N. cbn. auto.
  - apply IH. cbn in N. tauto.
Qed.

Theorem C55_add : forall s l src bits sev err ext addv qual usi len data ok1 ok2 ar,
  reach s ->
  let x := CAdd src bits sev err ext addv qual usi len data ok1 ok2 in
  let kk := named src err ext usi in
  let k := s_key src in
  proper x -> acceptable maxm src sev err ext addv qual usi len data ->
  stored s k = Some l -> owner_of s k = Some ar ->
  In kk (map key_of l) \/ used max s < max ->
  exists s' r os, dstep x s = Some (s', r, os) /\
    notices os = NStandard ar k (described src bits sev err ext addv qual usi len data) ::
                 match replaced kk l with
                 | Some (Standard u d) => [NStandard ar k (with_spec 3 (Standard u d))]
                 | _ => []
                 end.
Proof.
  intros s l src bits sev err ext addv qual usi len data ok1 ok2 ar R x kk k P A H Ow Rm.
  destruct (reach_inv max_pos R) as (Ls & F & I & _).
  destruct (@stored_some _ _ _ _ _ _ I H) as (c & Fc & ->).
  destruct (find_cell_some _ _ Fc) as (Hc & _).
  destruct (@add_step max maxm s Ls F c src bits sev err ext addv qual usi len data ok1 ok2 I Fc P A) as [B _].
  destruct B as (s' & Ls' & F' & y & Rr & old & Q & Cy & _ & _ & _ & _ & Old & _).
  { destruct (contents_key_dec (named src err ext usi) (contents s Ls c)) as [K|K]; auto.
    right. split; auto. intros ->. destruct Rm as [Rm|Rm]; [destruct (K Rm)|].
    pose proof (@used_inv _ _ _ _ (i_lists I)) as U. cbn in U. lia. }
  do 3 eexists. split; [exact Q|]. unfold owner_of in Ow. unfold k in *. rewrite Fc in Ow.
  change (cell_at c s) with (nth c (cells s) dcell) in Ow. unfold reports. rewrite Ow. cbn [notices].
  rewrite Cy. f_equal. destruct old as [o|].
  - destruct Old as (_ & Ho & Ko & Uo).
    assert (Go : good_item o) by (eapply content_good; eauto; eapply stored_good; eauto).
    rewrite (@replaced_some kk (contents s Ls c) (content o));
      [|apply (i_uniq I); auto|exact Ho|exact Ko].
    cbn [notices]. rewrite notice_old by auto. unfold content.
    destruct (Z.ltb_spec (d_usi o) 32768); [lia|]. reflexivity.
  - cbn [notices]. destruct (contents_key_dec kk (contents s Ls c)) as [K|K].
    + pose proof (Old K) as Uu. apply in_map_iff in K. destruct K as (d & Kd & Hd).
      rewrite (@replaced_some kk (contents s Ls c) d); [|apply (i_uniq I); auto|exact Hd|exact Kd].
      unfold kk, named in Kd. destruct (Z.ltb_spec usi 32768); [|lia].
      destruct d; [discriminate|reflexivity].
    + rewrite replaced_none by auto. reflexivity.
Qed.

Theorem C55_update : forall s l d src err ext addv usi len data ok1 ok2 ar,
  reach s ->
  let x := CUpdate src err ext addv usi len data ok1 ok2 in
  let k := s_key src in
  proper x -> acceptable_update maxm src err ext addv usi len data ->
  stored s k = Some l -> owner_of s k = Some ar -> In d l -> key_of d = named src err ext usi ->
  exists s' r os, dstep x s = Some (s', r, os) /\
    notices os = NStandard ar k (updated addv len data d) ::
                 match d with
                 | Standard u e => [NStandard ar k (with_spec 3 (Standard u e))]
                 | _ => []
                 end.
Proof.
  intros s l d src err ext addv usi len data ok1 ok2 ar R x k P A H Ow Hd K.
  destruct (reach_inv max_pos R) as (Ls & F & I & _).
  destruct (@stored_some _ _ _ _ _ _ I H) as (c & Fc & ->). destruct P as [P _].
  destruct (find_cell_some _ _ Fc) as (Hc & _).
  destruct (@update_step max maxm s Ls F c src err ext addv usi len data ok1 ok2 I Fc P A) as [B _].
  destruct (B d Hd K) as (s' & Ls' & y & Rr & old & Q & Cy & _ & _ & _ & _ & Old & _).
  do 3 eexists. split; [exact Q|]. unfold owner_of in Ow. unfold k in *. rewrite Fc in Ow.
  change (cell_at c s) with (nth c (cells s) dcell) in Ow. unfold reports. rewrite Ow. cbn [notices].
  rewrite Cy. f_equal. destruct old as [o|].
  - destruct Old as (_ & Co & Uo).
    assert (Go : good_item o) by (eapply content_good; eauto; eapply stored_good; eauto).
    cbn [notices]. rewrite notice_old, Co by auto. rewrite <- Co. unfold content.
    destruct (Z.ltb_spec (d_usi o) 32768); [lia|]. reflexivity.
  - unfold named in K. destruct (Z.ltb_spec usi 32768); [|lia].
    destruct d; [discriminate|reflexivity].
Qed.

(** Removal: the diagnosis is announced to have disappeared; for the last one
    of the sub-slot everything is announced to have disappeared. *)
Definition all_gone (d : diag) : diag :=
  match d with
  | Standard _ s =>
      let p := ch_props s in
      Standard 32770 (mkStd (ch_nbr s) (props (Z.land p 255) (p_group p) 0 0 (p_dir p))
                        (ch_err s) (ext_err s) (add_value s) (qualifier s))
  | m => m
  end.

Theorem C55_remove : forall s l d src err ext usi ok ar,
  reach s ->
  let x := CRemove src err ext usi ok in
  let k := s_key src in
  proper x -> acceptable_key src err ext usi ->
  stored s k = Some l -> owner_of s k = Some ar -> In d l -> key_of d = named src err ext usi ->
  exists s' r os, dstep x s = Some (s', r, os) /\
    notices os = [match d with
                  | Manufacturer u _ => NGone ar k u
                  | Standard _ _ =>
                      NStandard ar k (if length l =? 1 then all_gone d else with_spec 2 d)
                  end].
Proof.
  intros s l d src err ext usi ok ar R x k P A H Ow Hd K.
  destruct (reach_inv max_pos R) as (Ls & F & I & _).
  destruct (@stored_some _ _ _ _ _ _ I H) as (c & Fc & ->). destruct P as [P _].
  destruct (find_cell_some _ _ Fc) as (Hc & _).
  destruct (@remove_step max s Ls F c src err ext usi ok I Fc P A) as [B _].
  destruct (B d Hd K) as (s' & Ls' & F' & y & Rr & Q & Cy & _ & _ & _ & _ & _ & Ct).
  do 3 eexists. split; [exact Q|]. unfold owner_of in Ow. unfold k in *. rewrite Fc in Ow.
  change (cell_at c s) with (nth c (cells s) dcell) in Ow. rewrite Ow. unfold gone_report.
  change usi_channel with 32768%Z.
  set (rest := filter (fun d => negb (has_key (named src err ext usi) d)) (contents s Ls c)) in *.
  assert (El : (length (contents s Ls c) =? 1) = match rest with [] => true | _ => false end).
  { rewrite <- Ct. destruct rest; reflexivity. }
  rewrite El. unfold named in K. destruct (Z.leb_spec 32768 usi) as [U|U].
  - destruct (Z.ltb_spec usi 32768); [lia|].
    assert (Uy : (32768 <= d_usi y)%Z).
    { destruct (Z.lt_ge_cases (d_usi y) 32768) as [V|V]; auto. exfalso.
      subst d. unfold content in K. destruct (Z.ltb_spec (d_usi y) 32768); [discriminate|lia]. }
    assert (Gy : good_item y) by (eapply content_good; eauto; eapply stored_good; eauto).
    destruct Gy as [_ Gy]. destruct (Gy Uy) as (Gp & _). destruct (good_spec Gp) as [G1 G2].
    cbn [notices]. rewrite <- Cy. unfold content at 2. destruct (Z.ltb_spec (d_usi y) 32768); [lia|].
    f_equal. f_equal. unfold gone_item.
    destruct rest.
    + unfold content, set_spec. cbn [d_usi d_std d_data ch_nbr ch_props ch_err ext_err add_value qualifier].
      change (usi_extended <? 32768)%Z with false. destruct (Z.ltb_spec (d_usi y) 32768); [lia|].
      cbn [all_gone]. change sp_all_disappears with 0%Z. change m_fault with 0%Z. rewrite G2. reflexivity.
    + change usi_channel with 32768%Z. destruct (Z.leb_spec 32768 (d_usi y)); [|lia].
      unfold content, set_spec. cbn [d_usi d_std d_data].
      destruct (Z.ltb_spec (d_usi y) 32768); [lia|]. cbn [with_spec].
      change sp_disappears with 2%Z. rewrite (G1 2%Z) by lia. reflexivity.
  - destruct (Z.ltb_spec usi 32768); [|lia]. destruct d as [u e|u e]; [discriminate|].
    injection K as ->. reflexivity.
Qed.
End Report.

(** ** Concrete cases *)
Definition kA : key := (0, 1, 1)%Z.
Definition kB : key := (0, 1, 2)%Z.
Definition srcA : source := mkSrc kA 4 0 1.
Definition srcB : source := mkSrc kB 4 0 1.
Definition srcU : source := mkSrc kA 32768 0 0.
Definition add_fault (src : source) (err : Z) : call :=
  CAdd src 0 0 err 0 7 0 32770 0 None true true.
Definition add_maint (src : source) (err : Z) : call :=
  CAdd src 0 1 err 0 7 0 32770 0 None true true.
Definition add_usi (u : Z) : call := CAdd srcU 0 0 0 0 0 0 u 2 (Some [1; 2]%Z) true true.
Definition plugged : list call := [CPlug 0 kA; CPlug 1 kB; COwner 0 (Some 5); COwner 1 (Some 5)].

Ltac proper_tac :=
  repeat constructor; cbn; unfold src_ok, usi_source; cbn; try lia;
  try (intros ?; intros (? & ? & ?); lia).

Example C34_case :
  let xs := plugged ++ [add_fault srcA 9; add_maint srcA 9; add_usi 7; add_fault srcA 3;
                        CUpdate srcA 9 0 42 32770 0 None true true; CRemove srcU 0 0 7 true;
                        add_maint srcB 9] in
  Forall (fun x => proper x /\ never_pulls x) xs /\
  exists s tr, drun 4 100 xs (dinit 4 2) [] = Some (s, tr) /\
    stored 4 s kA = Some [Standard 32770 (mkStd 4 (props 0 0 1 1 1) 9 0 42 0);
                          Standard 32770 (mkStd 4 (props 0 0 0 1 1) 3 0 7 0)] /\
    stored 4 s kB = Some [Standard 32770 (mkStd 4 (props 0 0 1 1 1) 9 0 7 0)] /\
    used 4 s = 3 /\
    acceptable 100 srcA 0 3 0 7 0 32770 0 None /\
    acceptable_update 100 srcA 9 0 43 32770 0 None /\ acceptable_key srcA 9 0 32770.
Proof.
  split; [proper_tac|]. eexists _, _. split; [vm_compute; reflexivity|].
  split; [vm_compute; reflexivity|]. split; [vm_compute; reflexivity|]. split; [vm_compute; reflexivity|].
  unfold acceptable, acceptable_update, acceptable_key, acceptable_data, usi_known. cbn.
  repeat split; intros; try lia; try congruence.
Qed.

(** Pulling a sub-module loses its items: afterwards the pool can be full
    although no diagnosis is stored anywhere. *)
Theorem C34_pull_leak_refuted :
  let xs := [CPlug 0 kA; add_fault srcA 9; CPull kA; CPlug 0 kA] in
  Forall proper xs /\
  exists s tr, drun 1 100 xs (dinit 1 1) [] = Some (s, tr) /\
    stored 1 s kA = Some [] /\ total 1 s = 0 /\ used 1 s = 1 /\
    dstep 1 100 (add_fault srcA 3) s = Some (s, -1, [])%Z.
Proof.
  split; [proper_tac|]. eexists _, _. split; [vm_compute; reflexivity|]. repeat split.
Qed.

(** A diagnosis with a USI replaces a standard one of the whole sub-module
    with error type 0, although their keys differ. *)
Theorem C34_blank_key_refuted :
  let blank := CAdd srcU 0 1 0 0 0 0 32770 0 None true true in
  let xs := [CPlug 0 kA; blank; add_usi 7] in
  Forall api_call xs /\
  exists s tr, drun 4 100 xs (dinit 4 1) [] = Some (s, tr) /\
    stored 4 s kA = Some [Manufacturer 7 [1; 2]%Z].
Proof.
  split; [proper_tac|]. eexists _, _. split; vm_compute; reflexivity.
Qed.

(** The indicator is wrong if a connection has diagnosis in two sub-slots. *)
Theorem C35_two_subslots_refuted :
  let xs := plugged ++ [add_fault srcA 9; add_maint srcB 9] in
  Forall proper xs /\
  exists s tr, drun 4 100 xs (dinit 4 2) [] = Some (s, tr) /\
    owner_of s kA = Some 5 /\
    (exists l, stored 4 s kA = Some l /\ existsb is_fault l = true) /\
    last_indicator 5 tr = Some false.
Proof.
  split; [proper_tac|]. eexists _, _. split; [vm_compute; reflexivity|].
  split; [reflexivity|]. split; [eexists; split; [vm_compute; reflexivity|reflexivity]|reflexivity].
Qed.

(** It is wrong for a diagnosis with qualified severity "fault". *)
Theorem C35_qualified_refuted :
  let xs := plugged ++ [CAdd srcA 0 3 9 0 7 134217728 32771 0 None true true] in
  Forall proper xs /\
  exists s tr, drun 4 100 xs (dinit 4 2) [] = Some (s, tr) /\
    owner_of s kA = Some 5 /\
    (exists l, stored 4 s kA = Some l /\ existsb is_fault l = true) /\
    last_indicator 5 tr = Some false.
Proof.
  split; [proper_tac|]. eexists _, _. split; [vm_compute; reflexivity|].
  split; [reflexivity|]. split; [eexists; split; [vm_compute; reflexivity|reflexivity]|reflexivity].
Qed.

(** It is not set when the connection is established after the diagnosis was
    added. *)
Theorem C35_before_connect_refuted :
  let xs := [CPlug 0 kA; add_fault srcA 9; COwner 0 (Some 5)] in
  Forall proper xs /\
  exists s tr, drun 4 100 xs (dinit 4 2) [] = Some (s, tr) /\
    owner_of s kA = Some 5 /\
    (exists l, stored 4 s kA = Some l /\ existsb is_fault l = true) /\
    last_indicator 5 tr = None.
Proof.
  split; [proper_tac|]. eexists _, _. split; [vm_compute; reflexivity|].
  split; [reflexivity|]. split; [eexists; split; [vm_compute; reflexivity|reflexivity]|reflexivity].
Qed.

(** A diagnosis with USI 0 is stored but never listed. *)
Theorem C54_usi_zero_refuted :
  let xs := plugged ++ [add_usi 0] in
  Forall proper xs /\
  exists s tr c its, drun 4 100 xs (dinit 4 2) [] = Some (s, tr) /\
    stored 4 s kA = Some [Manufacturer 0 [1; 2]%Z] /\
    find_cell kA (cells s) = Some c /\
    walk_items 4 (items s) (c_list (cell_at c s)) = Some its /\ listed_usis 4 its 0 = Some [].
Proof.
  split; [proper_tac|]. eexists _, _, _, _. split; [vm_compute; reflexivity|].
  split; [vm_compute; reflexivity|]. split; [vm_compute; reflexivity|].
  split; vm_compute; reflexivity.
Qed.

Example C54_case :
  let xs := plugged ++ [add_usi 9; add_fault srcA 9; add_usi 7; add_fault srcA 3] in
  Forall proper xs /\
  exists s tr c its, drun 4 100 xs (dinit 4 2) [] = Some (s, tr) /\
    find_cell kA (cells s) = Some c /\
    walk_items 4 (items s) (c_list (cell_at c s)) = Some its /\
    listed_usis 4 its 0 = Some [7; 9; 32770]%Z /\ length (block_items its 32770) = 2 /\
    su_fault (c_sum (cell_at c s)) = true /\ su_req (c_sum (cell_at c s)) = false.
Proof.
  split; [proper_tac|]. eexists _, _, _, _. split; [vm_compute; reflexivity|].
  split; [vm_compute; reflexivity|]. split; [vm_compute; reflexivity|].
  repeat split; vm_compute; reflexivity.
Qed.

Print Assumptions C34_calls_return.
Print Assumptions C34_keys_unique.
Print Assumptions C34_add.
Print Assumptions C34_add_full.
Print Assumptions C34_update.
Print Assumptions C34_remove.
Print Assumptions C34_rejected.
Print Assumptions C34_no_leak.
Print Assumptions C34_pull_leak_refuted.
Print Assumptions C34_blank_key_refuted.
Print Assumptions C35_touched_partial.
Print Assumptions C35_written.
Print Assumptions C35_two_subslots_refuted.
Print Assumptions C35_qualified_refuted.
Print Assumptions C35_before_connect_refuted.
Print Assumptions C53_summary.
Print Assumptions C54_listing_partial.
Print Assumptions C54_usi_zero_refuted.
Print Assumptions C55_add.
Print Assumptions C55_update.
Print Assumptions C55_remove.
