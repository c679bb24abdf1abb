(** Theorem about connect requests: C87, data of an accepted connection are
    transmitted. *)
From Coq Require Import List ZArith Arith Bool Lia.
From Verif Require Import Base CpmModel BlockModel PpmModel PpmProps ConnModel ConnSpec ConnLemmas ConnExp ConnLayout ConnProps ConnMoreProps
  ConnRangeProps.
Import ListNotations.
Local Open Scope Z_scope.

(** The producer of an accepted input relation: pf_cmdev.c:4815-4890 and
    pf_ppm.c:288-347 read these fields of the relation. *)
Definition producer (p : crparam) (y : layout) (sa da : list Z) : iocr :=
  mkIocr (is_input p) (p_sdu p) (p_scf p) (p_rr p) (p_fid p) (p_vlan p) (p_prio p) sa da (y_in y) (y_desc y) ppm0.

(** No byte before a used byte is unused. *)
Definition packed (l : list (key * iodata)) : Prop :=
  forall k o a b, In (k, o) l -> In a (areas o) -> covers a b ->
  forall b', 0 <= b' <= b -> exists k' o' a', In (k', o') l /\ In a' (areas o') /\ covers a' b'.

(** The consumer status of a sub-slot is apart from its data and provider status. *)
Definition own_apart (l : list (key * iodata)) : Prop :=
  forall k o, In (k, o) l -> apart (iocs_area o) (data_area o) /\ apart (iocs_area o) (iops_area o).

Definition small_inv (o : iodata) : Prop :=
  (k_len o = 0 -> k_off o = 0) /\ (s_len o = 0 -> d_off o = 0 /\ d_len o = 0 /\ s_off o = 0).

Lemma layout_small : forall mdi cap app q v v' ys i p y, wf q -> only_plugs app -> room q v ->
  check_apdu mdi cap app q v = Ok (v', Accepted ys) -> nth_error (q_crs q) i = Some p -> nth_error ys i = Some y ->
  forall e, In e (y_desc y) -> small_inv (snd e).
Proof.
  intros mdi cap app q v v' ys i p y W A R H Hp Hy.
  pose proof (accepted_expected _ _ _ _ _ _ _ W A R H) as X.
  destruct (accepted_relation _ _ _ _ _ _ _ _ _ _ H Hp Hy) as (C & S & _ & _).
  pose proof (setup_desc_run cap (q_exp q) p) as RN. rewrite S in RN. cbn in RN. symmetry in RN.
  eapply run_forall; [| | |exact RN].
  - intros [k f] o Hc Ho. cbn. apply changes_in in Hc. destruct Hc as (e & fd & x & He & _ & Hx & Hf).
    apply get_exp_sub_in in Hx. destruct Hx as (xa & xm & X1 & _ & X2 & _ & X3 & _).
    destruct (X xa X1) as (_ & XO). destruct (XO xm X2) as (_ & _ & _ & _ & _ & SO). destruct (SO x X3) as (_ & _ & _ & _ & _ & DL).
    unfold small_inv in *. destruct Ho as (O1 & O2).
    destruct Hf as [(Hin & d & Hd & ->)|(Hin & d & Hd & ->)]; apply exp_desc_in in Hd; destruct (DL d Hd) as (D1 & D2 & D3).
    + unfold data_part. destruct (_ || _)%bool; destruct (xs_discard x); cbn; (split; [assumption|]); intros; lia.
    + unfold iocs_part. destruct (xs_discard x); cbn; (split; [|assumption]); intros; lia.
  - unfold small_inv, desc0. cbn. lia.
  - intros e [].
Qed.

Lemma pairs_apart : forall l : list (key * iodata), NoDup (map fst l) ->
  (forall k o k' o' a a', In (k, o) l -> In (k', o') l -> k <> k' -> In a (areas o) -> In a' (areas o') -> apart a a') ->
  (forall k o, In (k, o) l -> apart (data_area o) (iops_area o)) -> own_apart l ->
  ForallOrdPairs apart (all_areas l).
Proof.
  induction l as [|[k o] r IH]; intros N X D W; [constructor|]. inversion N as [|? ? N1 N2]; subst.
  unfold all_areas. cbn [flat_map snd]. fold (all_areas r).
  assert (T : ForallOrdPairs apart (all_areas r)).
  { apply IH; [assumption| | |].
    - intros. eapply (X k0 o0 k'); eauto; now right.
    - intros. eapply D. right. eassumption.
    - intros k1 o1 H1. apply (W k1). now right. }
  assert (F : forall a, In a (areas o) -> Forall (apart a) (all_areas r)).
  { intros a Ha. apply Forall_forall. intros a' Ha'. unfold all_areas in Ha'. apply in_flat_map in Ha'. destruct Ha' as ([k' o'] & H1 & H2).
    apply (X k o k' o'); [now left|now right| |assumption|assumption]. intros ->. apply N1. apply in_map_iff. exists (k', o'). auto. }
  specialize (D k o (or_introl eq_refl)). destruct (W k o (or_introl eq_refl)) as [W1 W2].
  unfold areas. cbn [app].
  constructor; [constructor; [assumption|constructor; [now apply apart_sym|apply F; cbn; auto]]|].
  constructor; [constructor; [now apply apart_sym|apply F; cbn; auto]|].
  constructor; [apply F; cbn; auto|assumption].
Qed.

Lemma apart_cases : forall a a', 0 < snd a -> 0 < snd a' -> apart a a' -> fst a + snd a <= fst a' \/ fst a' + snd a' <= fst a.
Proof.
  intros [s l] [s' l'] H H' A. unfold apart, covers in A. cbn in *. pose proof (A (Z.max s s')). lia.
Qed.

(** The producer of an accepted relation of the classes 1-3 is set up
    consistently. *)
Lemma producer_ok : forall mdi cap app q v v' ys i p y sa da, wf q -> only_plugs app -> room q v ->
  check_apdu mdi cap app q v = Ok (v', Accepted ys) -> nth_error (q_crs q) i = Some p -> nth_error ys i = Some y ->
  is_input p = true -> p_class p = 1 \/ (p_class p <= 3 /\ p_sdu p <= 1440) ->
  NoDup (map ae_api (p_apis p)) -> own_apart (y_desc y) -> length sa = 6%nat -> length da = 6%nat ->
  cfg_ok (producer p y sa da) /\ disjoint_layout (producer p y sa da) /\
  y_in y = total (y_desc y).
Proof.
  intros mdi cap app q v v' ys i p y sa da W A R H Hp Hy I CL N OW LS LD.
  pose proof (layout_small _ _ _ _ _ _ _ _ _ _ W A R H Hp Hy) as SM.
  destruct (accepted_relation _ _ _ _ _ _ _ _ _ _ H Hp Hy) as (C & S & _ & _).
  destruct (accepted_keys _ _ _ _ _ _ _ _ _ _ H Hp Hy N) as [N1 N2].
  pose proof (layout_total _ _ _ _ _ S I N1 N2) as T.
  pose proof (layout_inv _ _ _ _ _ W (nth_error_In _ _ Hp) S) as LI.
  destruct (C81_partial _ _ _ _ _ _ _ _ _ _ W H Hp Hy) as (ND & AP & DI).
  assert (IN : forall k o a, In (k, o) (y_desc y) -> In a (areas o) -> inside (p_sdu p) a).
  { intros k o a H1 H2. now destruct (C80_partial _ _ _ _ _ _ _ _ _ _ _ _ _ W H Hp Hy H1 H2). }
  pose proof (check_cr_none _ _ _ C) as CK.
  destruct W as (W1 & _). destruct (W1 p (nth_error_In _ _ Hp)) as (P1 & P2 & P3 & P4 & _). unfold is16 in *.
  assert (SD : p_sdu p <= 1440). { destruct CL as [E|[_ E]]; [|assumption]. destruct CK as (_ & _ & _ & _ & _ & K & _). apply K in E. lia. }
  assert (IA : forall a, In a (all_areas (y_desc y)) -> inside (p_sdu p) a).
  { intros a Ha. unfold all_areas in Ha. apply in_flat_map in Ha. destruct Ha as ([k o] & H1 & H2). eapply IN; eassumption. }
  assert (TT : 0 <= total (y_desc y) <= p_sdu p).
  { split; [rewrite total_bytes by (intros a Ha; apply (IA a Ha)); lia|].
    apply total_inside; [lia|assumption|]. now apply pairs_apart. }
  assert (TE : y_in y = total (y_desc y)) by (rewrite T; apply u16_id; lia).
  assert (KS : In (p_scf p) [1; 2; 4; 8; 16; 32; 64; 128]) by apply CK.
  assert (KR : 1 <= p_rr p <= 512 /\ (256 <= p_rr p -> p_scf p <= 64) /\ (p_rr p = 512 -> p_scf p <= 32)).
  { apply CK. destruct CL as [E|[E _]]; lia. }
  destruct KR as (K1 & K2 & K3).
  assert (KS1 : 1 <= p_scf p <= 128) by (cbn in KS; lia).
  split; [|split].
  - constructor; cbn; try assumption; try lia.
    + destruct (Z_le_gt_dec 256 (p_rr p)) as [G|G]; [specialize (K2 G); nia|nia].
    + intros k d Hk. unfold in_image. cbn.
      pose proof (IN k d (data_area d) Hk ltac:(cbn; auto)) as (A1 & A2 & A3).
      pose proof (IN k d (iops_area d) Hk ltac:(cbn; auto)) as (B1 & B2 & B3).
      pose proof (IN k d (iocs_area d) Hk ltac:(cbn; auto)) as (C1 & C2 & C3). cbn in *. lia.
  - split; [|exact ND]. cbn. intros k d k' d' r r' Hk Hk' NE.
    pose proof (IN k d (data_area d) Hk ltac:(cbn; auto)) as (A1 & A2 & A3).
    pose proof (IN k d (iops_area d) Hk ltac:(cbn; auto)) as (B1 & B2 & B3).
    pose proof (IN k d (iocs_area d) Hk ltac:(cbn; auto)) as (C1 & C2 & C3).
    pose proof (IN k' d' (data_area d') Hk' ltac:(cbn; auto)) as (A1' & A2' & A3').
    pose proof (IN k' d' (iops_area d') Hk' ltac:(cbn; auto)) as (B1' & B2' & B3').
    pose proof (IN k' d' (iocs_area d') Hk' ltac:(cbn; auto)) as (C1' & C2' & C3').
    destruct (SM _ Hk) as (Q1 & Q2). destruct (SM _ Hk') as (Q1' & Q2'). cbn [snd] in *.
    destruct (LI _ Hk) as (L1 & _ & _ & _ & _ & L6). destruct (LI _ Hk') as (L1' & _ & _ & _ & _ & L6'). cbn [snd] in *.
    cbn [fst snd data_area iops_area iocs_area] in *.
    rewrite u16_id in L6, L6' by lia.
    assert (KD : {k = k'} + {k <> k'}).
    { destruct k as [[x0 y0] z0], k' as [[x1 y1] z1]. destruct (Z.eq_dec x0 x1), (Z.eq_dec y0 y1), (Z.eq_dec z0 z1); subst; auto; right; congruence. }
    destruct KD as [->|KN].
    + assert (d' = d). { clear -ND Hk Hk'. revert ND Hk Hk'. induction (y_desc y) as [|[k0 o0] r0 IHr]; [intros _ []|]. cbn. intros N Hk Hk'. inversion N; subst.
        destruct Hk as [E|Hk], Hk' as [E'|Hk'].
        - congruence. - exfalso. inversion E; subst. apply H1. apply in_map_iff. exists (k', d'). auto.
        - exfalso. inversion E'; subst. apply H1. apply in_map_iff. exists (k', d). auto. - now apply IHr. }
      subst d'. destruct (OW _ _ Hk) as [W2 W3].
      assert (Y : 0 < k_len d -> 0 < d_len d -> k_off d + k_len d <= d_off d \/ d_off d + d_len d <= k_off d) by (intros; now apply (apart_cases (iocs_area d) (data_area d))).
      assert (Y2 : 0 < k_len d -> 0 < s_len d -> k_off d + k_len d <= s_off d \/ s_off d + s_len d <= k_off d) by (intros; now apply (apart_cases (iocs_area d) (iops_area d))).
      clear -Y Y2 Q1 Q2 A1 A2 B1 B2 C1 C2 L6 NE.
      destruct r, r'; try (exfalso; apply NE; reflexivity); cbn [roff rlen]; lia.
    + assert (Y : forall a a', In a (areas d) -> In a' (areas d') -> 0 < snd a -> 0 < snd a' -> fst a + snd a <= fst a' \/ fst a' + snd a' <= fst a).
      { intros a a' Ha Ha' G G'. apply apart_cases; [assumption|assumption|]. exact (AP k d k' d' a a' Hk Hk' KN Ha Ha'). }
      assert (AR : forall o x, In (roff o x, rlen o x) (areas o)) by (intros o [| |]; cbn; auto).
      assert (YR : forall x x', 0 < rlen d x -> 0 < rlen d' x' -> roff d x + rlen d x <= roff d' x' \/ roff d' x' + rlen d' x' <= roff d x).
      { intros x x' G G'. exact (Y _ _ (AR d x) (AR d' x') G G'). }
      assert (PT : forall x, 0 < rlen d x \/ (rlen d x = 0 /\ roff d x = 0) \/ (rlen d x = 0 /\ roff d x = s_off d /\ 0 < s_len d)).
      { clear -Q1 Q2 A2 B2 C2 L6. intros [| |]; cbn [roff rlen]; lia. }
      assert (PT' : forall x, 0 < rlen d' x \/ (rlen d' x = 0 /\ roff d' x = 0) \/ (rlen d' x = 0 /\ roff d' x = s_off d' /\ 0 < s_len d')).
      { clear -Q1' Q2' A2' B2' C2' L6'. intros [| |]; cbn [roff rlen]; lia. }
      assert (PR : 0 <= roff d r /\ 0 <= roff d' r') by (clear -A1 B1 C1 A1' B1' C1'; split; [destruct r|destruct r']; assumption).
      pose proof (YR r r') as Y1. pose proof (YR RIops r') as Y2. pose proof (YR r RIops) as Y3.
      specialize (PT r). specialize (PT' r'). cbn [rlen roff] in Y2, Y3. clear -PT PT' PR Y1 Y2 Y3. lia.
  - assumption.
Qed.

(** * C87 *)

(** Relations of class 1 (or of class 2 and 3 with a length that fits into a
    frame) that name each API once, whose consumer status bytes are apart from the
    data of the same sub-slot, and whose areas leave no gaps: whatever was last
    written for a sub-slot is in the frame that is sent next, at the position
    agreed with the controller.  Missing: layouts with gaps ([C87_refuted]), the
    classes 4 and 5, and lengths that do not fit into a frame. *)
Theorem C87_partial : forall mdi cap app q v v' ys i p y sa da, wf q -> only_plugs app -> room q v ->
  check_apdu mdi cap app q v = Ok (v', Accepted ys) -> nth_error (q_crs q) i = Some p -> nth_error ys i = Some y ->
  is_input p = true -> p_class p = 1 \/ (p_class p <= 3 /\ p_sdu p <= 1440) ->
  NoDup (map ae_api (p_apis p)) -> own_apart (y_desc y) -> packed (y_desc y) -> length sa = 6%nat -> length da = 6%nat ->
  forall qs s w k d r now e add, phist (producer p y sa da) qs s w -> In (k, d) (y_desc y) -> y_arm s = true ->
  exists s' evs frame, pstep s (QTimer now e add) = Ok s' /\ y_log s' = evs ++ PevSend frame :: y_log s /\
    slice frame (20 + roff d r) (rlen d r) = Ok (last_written k d r qs).
Proof.
  intros mdi cap app q v v' ys i p y sa da W A R H Hp Hy I CL N OW PK LS LD qs s w k d r now e add HI K AR.
  destruct (producer_ok _ _ _ _ _ _ _ _ _ _ _ _ W A R H Hp Hy I CL N OW LS LD) as (CO & DL & TE).
  apply (C15_frame_carries_last_written _ _ _ _ _ _ _ _ _ _ CO eq_refl DL HI K); [|exact AR].
  cbn [o_inlen producer]. rewrite TE.
  destruct (layout_small _ _ _ _ _ _ _ _ _ _ W A R H Hp Hy _ K) as (Q1 & Q2). cbn [snd] in *.
  destruct (accepted_relation _ _ _ _ _ _ _ _ _ _ H Hp Hy) as (C & S & _ & _).
  pose proof (layout_inv _ _ _ _ _ W (nth_error_In _ _ Hp) S _ K) as (L1 & L2 & L3 & L4 & L5 & L6). cbn [snd] in *.
  assert (IN : forall k o a, In (k, o) (y_desc y) -> In a (areas o) -> inside (p_sdu p) a).
  { intros k0 o a H1 H2. now destruct (C80_partial _ _ _ _ _ _ _ _ _ _ _ _ _ W H Hp Hy H1 H2). }
  assert (IA : forall a, In a (all_areas (y_desc y)) -> 0 <= snd a).
  { intros a Ha. unfold all_areas in Ha. apply in_flat_map in Ha. destruct Ha as ([k0 o0] & H1 & H2). apply (IN _ _ _ H1 H2). }
  assert (G : forall a, In a (areas d) -> 0 < snd a -> fst a + snd a <= total (y_desc y)).
  { intros a Ha Hs. destruct (IN _ _ _ K Ha) as (B1 & _). apply total_covers; [assumption|]. intros b Hb.
    destruct (PK k d a (fst a + snd a - 1) K Ha) with (b' := b) as (k' & o' & a' & H1 & H2 & H3); [unfold covers; lia|lia|].
    exists a'. split; [|assumption]. unfold all_areas. apply in_flat_map. exists (k', o'). auto. }
  assert (T0 : 0 <= total (y_desc y)) by (rewrite total_bytes by assumption; lia).
  pose proof (G (data_area d) ltac:(cbn; auto)) as G1. pose proof (G (iops_area d) ltac:(cbn; auto)) as G2. pose proof (G (iocs_area d) ltac:(cbn; auto)) as G3.
  pose proof (IN k d (data_area d) K ltac:(cbn; auto)) as (A1 & A2 & A3).
  destruct W as (W1 & _). destruct (W1 p (nth_error_In _ _ Hp)) as (P1 & _). unfold is16 in P1.
  cbn [fst snd data_area iops_area iocs_area] in *. rewrite u16_id in L6 by lia.
  destruct r; cbn [roff rlen]; lia.
Qed.
Print Assumptions C87_partial.

(** The example request: the frame has 7 bytes of data without gaps. *)
Lemma ex_packed : packed (y_desc (nth 0 ex_layouts (mkLayout [] 0 0))) /\ own_apart (y_desc (nth 0 ex_layouts (mkLayout [] 0 0))).
Proof.
  split.
  - intros k o a b H Ha Hc b' Hb.
    assert (B : b <= 6). { cbn in H. destruct H as [E|[E|[E|[]]]]; inversion E; subst; cbn in Ha; destruct Ha as [<-|[<-|[<-|[]]]]; unfold covers in Hc; cbn in Hc; lia. }
    cbn [nth ex_layouts y_desc].
    assert (X : 0 <= b' < 2 \/ b' = 2 \/ b' = 3 \/ b' = 4 \/ b' = 5 \/ b' = 6) by lia.
    destruct X as [X|[->|[->|[->|[->| ->]]]]].
    + do 3 eexists. split; [left; reflexivity|]. split; [left; reflexivity|]. unfold covers; cbn; lia.
    + do 3 eexists. split; [left; reflexivity|]. split; [right; left; reflexivity|]. unfold covers; cbn; lia.
    + do 3 eexists. split; [right; left; reflexivity|]. split; [left; reflexivity|]. unfold covers; cbn; lia.
    + do 3 eexists. split; [right; left; reflexivity|]. split; [right; left; reflexivity|]. unfold covers; cbn; lia.
    + do 3 eexists. split; [right; right; left; reflexivity|]. split; [right; right; left; reflexivity|]. unfold covers; cbn; lia.
    + do 3 eexists. split; [right; left; reflexivity|]. split; [right; right; left; reflexivity|]. unfold covers; cbn; lia.
  - intros k o H. cbn in H. destruct H as [E|[E|[E|[]]]]; inversion E; subst; split; intros b; unfold covers; cbn; lia.
Qed.

Definition ex_mac : list Z := [2; 0; 0; 0; 0; 9].
Definition ex_ops (k : key) : list pop := [QOpen true (repeat 0 (Z.to_nat 1500)) 0 true; QSetData k (WBytes [170]) [128]].
Definition sent (s : outcome psys) : list Z :=
  match s with Ok s => match filter (fun e => match e with PevSend _ => true | _ => false end) (y_log s) with PevSend f :: _ => f | _ => [] end | _ => [] end.
Definition after_ops (o : iocr) (qs : list pop) : outcome psys := fold_left (fun s q => do s <- s; pstep s q) qs (Ok (mkPsys o false [])).

Example C87_nonvacuous : exists s, after_ops (producer ex_in (nth 0 ex_layouts (mkLayout [] 0 0)) ex_mac ex_mac) (ex_ops (0, 1, 3)) = Ok s /\ y_arm s = true /\
  slice (sent (pstep s (QTimer 32000 true true))) (20 + 3) 1 = Ok [170].
Proof. eexists. split; [vm_compute; reflexivity|]. split; vm_compute; reflexivity. Qed.

(** A request whose second sub-slot is at offset 20 is accepted; what is written
    for this sub-slot is not sent. *)
Definition gap_in : crparam := ex_cr 1 1 40 49153 3 [mkApi 0 [mkFdesc 1 1 0; mkFdesc 1 3 20] [mkFdesc 1 2 5; mkFdesc 1 3 6]].
Definition gap_q : request := mkRequest ex_ar [gap_in; ex_out] [mkXapi 0 ex_mods] [ex_alarm] None false.
Definition gap_layout : layout :=
  mkLayout [((0, 1, 1), mkIodata 0 2 2 1 0 0); ((0, 1, 3), mkIodata 20 1 21 1 6 1); ((0, 1, 2), mkIodata 0 0 0 0 5 1)] 7 0.
Theorem C87_refuted : exists v' ys qs s s' evs frame, wf gap_q /\ room gap_q ex_dev /\
  check_apdu 32 8 ex_app gap_q ex_dev = Ok (v', Accepted (gap_layout :: ys)) /\
  after_ops (producer gap_in gap_layout ex_mac ex_mac) qs = Ok s /\ pstep s (QTimer 32000 true true) = Ok s' /\
  y_log s' = evs ++ PevSend frame :: y_log s /\ In ((0, 1, 3), mkIodata 20 1 21 1 6 1) (y_desc gap_layout) /\
  last_written (0, 1, 3) (mkIodata 20 1 21 1 6 1) RData qs = [170] /\ slice frame (20 + 20) 1 = Ok [0].
Proof.
  assert (W : wf gap_q) by (apply wf_in; [wfcr|reflexivity]).
  do 2 eexists. exists (ex_ops (0, 1, 3)). do 2 eexists. eexists [_; _], _. split; [exact W|]. split; [unfold room; cbn; lia|].
  split; [vm_compute; reflexivity|]. split; [vm_compute; reflexivity|]. split; [vm_compute; reflexivity|].
  split; [vm_compute; reflexivity|]. split; [right; left; reflexivity|]. split; vm_compute; reflexivity.
Qed.
Print Assumptions C87_refuted.
