(** The state that the application sets reaches all connections. *)
From Coq Require Import List ZArith Arith Bool Lia.
From Verif Require Import Base PpmModel PpmProps StateModel.
Import ListNotations.
Local Open Scope Z_scope.

(** * Specification *)

(** The bit of the transmitted data status: primary 0, redundancy 1, run 4 (PNET_DATA_STATUS_BIT_...). *)
Definition status_bit (k : setter) : Z := match k with SPrimary => 0 | SRedundancy => 1 | SProvider => 4 end.

(** [o'] is [o] but for this bit of its data status. *)
Definition told (k : setter) (v : bool) (o o' : iocr) : Prop :=
  (forall i, 0 <= i -> Z.testbit (p_dstat (o_ppm o')) i = if i =? status_bit k then v else Z.testbit (p_dstat (o_ppm o)) i) /\
  o' = set_ppm o (set_dstat (o_ppm o) (p_dstat (o_ppm o'))) /\ 0 <= p_dstat (o_ppm o') < 256.

(** All CRs of the connection are told, the rest of its array is as it was. *)
Definition conn_told (k : setter) (v : bool) (c c' : conn) : Prop :=
  n_used c' = n_used c /\ n_nbr c' = n_nbr c /\ length (n_crs c') = length (n_crs c) /\
  forall ix o, nth_error (n_crs c) ix = Some o -> exists o', nth_error (n_crs c') ix = Some o' /\ if (ix <? n_nbr c)%nat then told k v o o' else o' = o.

Definition conn_ok (c : conn) : Prop := (n_used c = true -> (n_nbr c <= length (n_crs c))%nat) /\ Forall (fun o => 0 <= p_dstat (o_ppm o) < 256) (n_crs c).

(** * Proof *)

Lemma replace_same : forall A (l : list A) i x, (i < length l)%nat -> nth_error (replace_at l i x) i = Some x.
Proof. intros A l i x H. unfold replace_at. rewrite nth_error_app2 by (rewrite firstn_length; lia). rewrite firstn_length. replace (i - Nat.min i (length l))%nat with 0%nat by lia. reflexivity. Qed.
Lemma replace_other : forall A (l : list A) i j x, (i < length l)%nat -> i <> j -> nth_error (replace_at l i x) j = nth_error l j.
Proof.
  intros A l. induction l as [|y l IH]; intros i j x H N; [cbn in H; lia|]. destruct i, j; cbn; try congruence; try reflexivity.
  unfold replace_at in IH. apply IH; [cbn in H; lia|lia].
Qed.
Lemma replace_length : forall A (l : list A) i x, (i < length l)%nat -> length (replace_at l i x) = length l.
Proof. intros A l i x H. unfold replace_at. rewrite app_length, firstn_length. cbn [length]. rewrite skipn_length. lia. Qed.

Definition dset_of (k : setter) (v : bool) : dset := match k with SPrimary => DPrimary v | SRedundancy => DRedundancy v | SProvider => DProvider v end.

Lemma step_told : forall k v o, 0 <= p_dstat (o_ppm o) < 256 -> told k v o (dset_step o (dset_of k v)).
Proof.
  intros k v o R. unfold told. destruct k; cbn [dset_of dset_step apply_dset status_bit set_ppm set_dstat o_ppm p_dstat];
  (split; [intros i I; apply put_bit_spec; lia|split; [reflexivity|apply put_bit_range]]).
Qed.

Lemma cr_loop_told : forall drv k v n ix c ret, (ix + n <= length (n_crs c))%nat -> Forall (fun o => 0 <= p_dstat (o_ppm o) < 256) (n_crs c) ->
  exists c' ok, cr_loop drv (dset_of k v) n ix c ret = Ok (c', ok) /\ n_used c' = n_used c /\ n_nbr c' = n_nbr c /\ length (n_crs c') = length (n_crs c) /\
    (forall j o, nth_error (n_crs c) j = Some o -> exists o', nth_error (n_crs c') j = Some o' /\ if (ix <=? j)%nat && (j <? ix + n)%nat then told k v o o' else o' = o) /\
    (ok = true <-> ret = true /\ forall j o', (ix <= j < ix + n)%nat -> nth_error (n_crs c') j = Some o' -> drv o' = true).
Proof.
  intros drv k v n. induction n as [|n IH]; intros ix c ret L F; cbn [cr_loop].
  - exists c, ret. repeat split; auto; try tauto; [|intros; lia]. intros j o J. exists o. split; [exact J|]. destruct (Nat.leb_spec ix j), (Nat.ltb_spec j (ix + 0)); try lia; reflexivity.
  - unfold set_cr. destruct (nth_error (n_crs c) ix) as [o|] eqn:O; [|apply nth_error_None in O; lia]. cbn [obind fst snd].
    set (o1 := dset_step o (dset_of k v)). assert (Ro : 0 <= p_dstat (o_ppm o) < 256) by (rewrite Forall_forall in F; apply F; eapply nth_error_In; exact O).
    pose proof (step_told k v o Ro) as T. fold o1 in T. assert (Lx : (ix < length (n_crs c))%nat) by lia.
    destruct (IH (S ix) (mkConn (n_used c) (n_nbr c) (replace_at (n_crs c) ix o1)) (if drv o1 then ret else false)) as (c' & ok & E & A1 & A2 & A3 & A4 & A5).
    { cbn [n_crs]. rewrite replace_length by lia. lia. }
    { cbn [n_crs]. rewrite Forall_forall in F |- *. intros x X. destruct (In_nth_error _ _ X) as (j & J). destruct (Nat.eq_dec ix j) as [<-|Nj].
      - rewrite replace_same in J by lia. injection J as <-. destruct T as (_ & _ & T). exact T.
      - rewrite replace_other in J by lia. apply F. eapply nth_error_In. exact J. }
    cbn [n_used n_nbr n_crs] in *. rewrite replace_length in A3 by lia. exists c', ok. split; [exact E|]. split; [exact A1|]. split; [exact A2|]. split; [exact A3|].
    assert (X1 : nth_error (n_crs c') ix = Some o1).
    { destruct (A4 ix o1 (replace_same _ _ _ _ Lx)) as (o' & Q1 & Q2). destruct (Nat.leb_spec (S ix) ix); [lia|]. cbn [andb] in Q2. subst o'. exact Q1. }
    split.
    + intros j x J. destruct (Nat.eq_dec ix j) as [<-|Nj].
      * assert (x = o) by congruence. subst x. exists o1. split; [exact X1|]. destruct (Nat.leb_spec ix ix), (Nat.ltb_spec ix (ix + S n)); try lia. exact T.
      * destruct (A4 j x) as (o' & Q1 & Q2); [rewrite replace_other by lia; exact J|]. exists o'. split; [exact Q1|].
        destruct (Nat.leb_spec (S ix) j), (Nat.leb_spec ix j), (Nat.ltb_spec j (S ix + n)), (Nat.ltb_spec j (ix + S n)); try lia; exact Q2.
    + rewrite A5. split.
      * intros (Q1 & Q2). destruct (drv o1) eqn:D; [|discriminate]. split; [exact Q1|]. intros j o' J N. destruct (Nat.eq_dec ix j) as [<-|Nj]; [congruence|]. apply (Q2 j); [lia|exact N].
      * intros (Q1 & Q2). rewrite (Q2 ix o1 ltac:(lia) X1). split; [exact Q1|]. intros j o' J N. apply (Q2 j); [lia|exact N].
Qed.

(** C132: the state is set in all CRs of all connections and nothing else changes; the call succeeds exactly if the
    driver takes all of them.  [reached]: the tables end behind entry [max_ar], which is only used to refuse. *)
Theorem C132_all : forall max_ar drv k v ars, Forall conn_ok ars ->
  exists ars' ok, pnet_set max_ar drv k v ars = Ok (ars', ok) /\ length ars' = length ars /\
    (forall ix c, nth_error ars ix = Some c -> exists c', nth_error ars' ix = Some c' /\ if n_used c && (ix <? max_ar)%nat then conn_told k v c c' else c' = c) /\
    (ok = true <-> forall ix c' j o', (ix < max_ar)%nat -> nth_error ars' ix = Some c' -> n_used c' = true -> (j < n_nbr c')%nat -> nth_error (n_crs c') j = Some o' -> drv o' = true).
Proof.
  intros max_ar drv k v ars F. unfold pnet_set. fold (dset_of k v).
  assert (G : forall n ix ars ret, Forall conn_ok ars -> exists ars' ok, ar_loop drv (dset_of k v) n ix ars ret = Ok (ars', ok) /\ length ars' = length ars /\
    (forall j c, nth_error ars j = Some c -> exists c', nth_error ars' j = Some c' /\ if n_used c && ((ix <=? j)%nat && (j <? ix + n)%nat) then conn_told k v c c' else c' = c) /\
    (ok = true <-> ret = true /\ forall i c' j o', (ix <= i < ix + n)%nat -> nth_error ars' i = Some c' -> n_used c' = true -> (j < n_nbr c')%nat -> nth_error (n_crs c') j = Some o' -> drv o' = true)).
  { clear ars F. induction n as [|n IH]; intros ix ars ret F; cbn [ar_loop].
    - exists ars, ret. split; [reflexivity|]. split; [reflexivity|]. split; [|split; [intros R; split; [exact R|intros; lia]|tauto]].
      intros j c J. exists c. split; [exact J|]. destruct (Nat.leb_spec ix j), (Nat.ltb_spec j (ix + 0)); try lia; rewrite ?andb_false_r; reflexivity.
    - assert (SKIP : (forall c, nth_error ars ix = Some c -> n_used c = false) -> exists ars' ok, ar_loop drv (dset_of k v) n (S ix) ars ret = Ok (ars', ok) /\ length ars' = length ars /\
        (forall j c, nth_error ars j = Some c -> exists c', nth_error ars' j = Some c' /\ if n_used c && ((ix <=? j)%nat && (j <? ix + S n)%nat) then conn_told k v c c' else c' = c) /\
        (ok = true <-> ret = true /\ forall i c' j o', (ix <= i < ix + S n)%nat -> nth_error ars' i = Some c' -> n_used c' = true -> (j < n_nbr c')%nat -> nth_error (n_crs c') j = Some o' -> drv o' = true)).
      { intros U. destruct (IH (S ix) ars ret F) as (ars' & ok & E & A1 & A2 & A3). exists ars', ok. split; [exact E|]. split; [exact A1|].
        assert (B : forall j c, nth_error ars j = Some c -> exists c', nth_error ars' j = Some c' /\ if n_used c && ((ix <=? j)%nat && (j <? ix + S n)%nat) then conn_told k v c c' else c' = c).
        { intros j c J. destruct (A2 j c J) as (c' & C1 & C2). exists c'. split; [exact C1|]. destruct (Nat.eq_dec ix j) as [<-|N].
          - rewrite (U c J) in *. cbn [andb] in *. exact C2.
          - destruct (Nat.leb_spec (S ix) j), (Nat.leb_spec ix j), (Nat.ltb_spec j (S ix + n)), (Nat.ltb_spec j (ix + S n)); try lia; exact C2. }
        split; [exact B|]. rewrite A3. split; intros (Q1 & Q2); (split; [exact Q1|]); intros i c' j o' I X Y Z0 W.
        - destruct (Nat.eq_dec ix i) as [<-|N]; [|apply (Q2 i c' j o'); auto; lia]. exfalso.
          destruct (nth_error ars ix) as [c|] eqn:C; [|apply nth_error_None in C; assert (ix < length ars')%nat by (apply nth_error_Some; congruence); lia].
          destruct (B ix c C) as (c2 & B1 & B2). rewrite (U c eq_refl) in B2. cbn [andb] in B2. rewrite X in B1. injection B1 as <-. subst c'. rewrite (U c eq_refl) in Y. discriminate.
        - apply (Q2 i c' j o'); auto; lia. }
      destruct (nth_error ars ix) as [c|] eqn:C; [|apply SKIP; discriminate]. destruct (n_used c) eqn:U; [|apply SKIP; intros c2 [= <-]; exact U]. clear SKIP.
      assert (Ok_c : conn_ok c) by (rewrite Forall_forall in F; apply F; eapply nth_error_In; exact C). destruct Ok_c as (K1 & K2). specialize (K1 U).
      assert (Lx : (ix < length ars)%nat) by (apply nth_error_Some; congruence).
      destruct (cr_loop_told drv k v (n_nbr c) 0 c ret ltac:(lia) K2) as (c1 & r1 & E1 & B1 & B2 & B3 & B4 & B5). rewrite E1. cbn [obind fst snd].
      assert (T : conn_told k v c c1).
      { split; [exact B1|]. split; [exact B2|]. split; [exact B3|]. intros j o J. destruct (B4 j o J) as (o' & Q1 & Q2). exists o'. split; [exact Q1|]. exact Q2. }
      destruct (IH (S ix) (replace_at ars ix c1) r1) as (ars' & ok & E & A1 & A2 & A3).
      { rewrite Forall_forall in F |- *. intros x X. destruct (In_nth_error _ _ X) as (j & J). destruct (Nat.eq_dec ix j) as [<-|Nj].
        - rewrite replace_same in J by lia. injection J as <-. split; [intros _; lia|]. rewrite Forall_forall in K2 |- *. intros o Ho. destruct (In_nth_error _ _ Ho) as (i & Hi).
          destruct (nth_error (n_crs c) i) as [o0|] eqn:O; [|apply nth_error_None in O; assert (i < length (n_crs c1))%nat by (apply nth_error_Some; congruence); lia].
          destruct (B4 i o0 O) as (o2 & Q1 & Q2). rewrite Hi in Q1. injection Q1 as <-. destruct ((0 <=? i)%nat && (i <? 0 + n_nbr c)%nat); [destruct Q2 as (_ & _ & Q2); exact Q2|].
          subst o. apply K2. eapply nth_error_In. exact O.
        - rewrite replace_other in J by lia. apply F. eapply nth_error_In. exact J. }
      rewrite replace_length in A1 by lia. exists ars', ok. split; [exact E|]. split; [exact A1|].
      assert (X1 : nth_error ars' ix = Some c1).
      { destruct (A2 ix c1 (replace_same _ _ _ _ Lx)) as (c2 & Q1 & Q2). destruct (Nat.leb_spec (S ix) ix); [lia|]. cbn [andb] in Q2. rewrite andb_false_r in Q2. subst c2. exact Q1. }
      split.
      + intros j x J. destruct (Nat.eq_dec ix j) as [<-|Nj].
        * assert (x = c) by congruence. subst x. exists c1. split; [exact X1|]. rewrite U. destruct (Nat.leb_spec ix ix), (Nat.ltb_spec ix (ix + S n)); try lia. exact T.
        * destruct (A2 j x) as (c2 & Q1 & Q2); [rewrite replace_other by lia; exact J|]. exists c2. split; [exact Q1|].
          destruct (Nat.leb_spec (S ix) j), (Nat.leb_spec ix j), (Nat.ltb_spec j (S ix + n)), (Nat.ltb_spec j (ix + S n)); try lia; exact Q2.
      + rewrite A3, B5. split.
        * intros ((Q1 & Q2) & Q3). split; [exact Q1|]. intros i c' j o' I X Y Z0 W. destruct (Nat.eq_dec ix i) as [<-|Nj]; [|apply (Q3 i c' j o'); auto; lia].
          rewrite X1 in X. injection X as <-. apply (Q2 j o'); [lia|exact W].
        * intros (Q1 & Q2). split; [split; [exact Q1|]|].
          -- intros j o' J W. apply (Q2 ix c1 j o'); auto; [lia|congruence|lia].
          -- intros i c' j o' I. apply Q2. lia. }
  destruct (G max_ar 0%nat ars true F) as (ars' & ok & E & A1 & A2 & A3). exists ars', ok. split; [exact E|]. split; [exact A1|]. split; [exact A2|]. rewrite A3.
  split; [intros (_ & Q) ix c' j o' I; apply Q; lia|]. intros Q. split; [reflexivity|]. intros i c' j o' I. apply Q. lia.
Qed.
Print Assumptions C132_all.

(** * Examples, and what does not hold *)

Definition ex_ppm (st : pstate) (d : Z) : ppm := mkPpm st 0 (repeat 1 6) (repeat 2 6) false [] 0 false 0 0 d 0 0 0 0 0 (repeat 0 40) 0 32 1 0 false.
Definition ex_iocr (st : pstate) (d : Z) : iocr := mkIocr true 40 32 1 49152 0 6 (repeat 1 6) (repeat 2 6) 40 [] (ex_ppm st d).
Definition ex_ars : list conn :=
  [mkConn true 2 [ex_iocr PRun 37; ex_iocr PRun 39; ex_iocr PRun 37]; mkConn false 1 [ex_iocr PRun 0; ex_iocr PRun 0; ex_iocr PRun 0]; mkConn true 1 [ex_iocr PRun 53; ex_iocr PRun 37; ex_iocr PRun 37]].
Definition status_of (x : outcome (list conn * bool)) : list (list Z) := match x with Ok (ars, _) => map (fun c => map (fun o => p_dstat (o_ppm o)) (n_crs c)) ars | _ => [] end.

Example C132_example : Forall conn_ok ex_ars /\ status_of (pnet_set 2 (fun _ => true) SProvider true ex_ars) = [[53; 55; 37]; [0; 0; 0]; [53; 37; 37]] /\
  status_of (pnet_set 3 (fun _ => true) SPrimary false ex_ars) = [[36; 38; 37]; [0; 0; 0]; [52; 37; 37]] /\
  status_of (pnet_set 3 (fun _ => true) SRedundancy false ex_ars) = [[37; 37; 37]; [0; 0; 0]; [53; 37; 37]].
Proof. split; [|vm_compute; auto]. repeat (constructor; [split; [cbn; lia|repeat (constructor; [cbn; lia|]); constructor]|]). constructor. Qed.

(** Finding: the state is not kept for connections that come later: a new producer starts as primary and stopped,
    whatever was set before. *)
Theorem C132_later_refuted : ~ (forall k v o junk o', create (dset_step o (match k with SPrimary => DPrimary v | SRedundancy => DRedundancy v | SProvider => DProvider v end)) true junk = Ok (o', 0) ->
  Z.testbit (p_dstat (o_ppm o')) (status_bit k) = v).
Proof.
  intros H. destruct (create (dset_step (ex_iocr PWStart 0) (DProvider true)) true (repeat 0 1500)) as [[o' z]| |] eqn:E; try (vm_compute in E; discriminate).
  specialize (H SProvider true (ex_iocr PWStart 0) (repeat 0 1500) o'). vm_compute in E. injection E as <- <-. specialize (H ltac:(vm_compute; reflexivity)). vm_compute in H. discriminate.
Qed.
Print Assumptions C132_later_refuted.
