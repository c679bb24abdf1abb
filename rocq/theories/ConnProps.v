(** Theorems about connect requests: C80-C89. *)
From Coq Require Import List ZArith Arith Bool Lia.
From Verif Require Import Base CpmModel BlockModel PpmModel PpmProps ConnModel ConnSpec ConnLemmas ConnExp ConnLayout.
Import ListNotations.
Local Open Scope Z_scope.

(** * Example request
    Slot 1 with an input sub-slot (2 bytes), an output sub-slot (3 bytes) and one
    with both (1 byte in, 4 bytes out); cycle time 32 ms. *)

Definition ex_ar : arp := mkArp 1 [1; 2; 3] [2; 0; 0; 0; 0; 1] [222; 160; 0; 0; 108; 151; 17; 209; 130; 113; 0; 1] 1 false false 0 false
  100 34964 3 [112; 108; 99].
Definition ex_mods : list xmod :=
  [mkXmod 1 5 [mkXsub 1 10 1 false false false false [mkDdesc 1 2 1 1];
               mkXsub 2 11 2 false false false false [mkDdesc 2 3 1 1];
               mkXsub 3 12 3 false false false false [mkDdesc 1 1 1 1; mkDdesc 2 4 1 1]]].
Definition ex_cr (ty class sdu fid hold : Z) (apis : list apientry) : crparam :=
  mkCrparam ty 34962 class false false sdu fid 32 32 1 4294967295 hold 0 6 [0; 0; 0; 0; 0; 0] apis.
Definition ex_in : crparam := ex_cr 1 1 40 49153 3
  [mkApi 0 [mkFdesc 1 1 0; mkFdesc 1 3 3] [mkFdesc 1 2 5; mkFdesc 1 3 6]].
Definition ex_out : crparam := ex_cr 2 1 40 65535 3
  [mkApi 0 [mkFdesc 1 2 0; mkFdesc 1 3 4] [mkFdesc 1 1 9; mkFdesc 1 3 10]].
Definition ex_alarm : alarmcr := mkAlarmcr 1 false 34962 1 3 200 0 6 0 5.
Definition ex_q : request := mkRequest ex_ar [ex_in; ex_out] [mkXapi 0 ex_mods] [ex_alarm] None false.
Definition ex_dev : dev := mkDev [(0, [])] 1.

(** An application that plugs what it is asked for. *)
Fixpoint put_slot (s : Z) (l : list (Z * list Z)) : list (Z * list Z) :=
  match l with
  | [] => [(s, [])]
  | (s', t) :: r => if s' =? s then l else (s', t) :: put_slot s r
  end.
Fixpoint put_sub (s t : Z) (l : list (Z * list Z)) : list (Z * list Z) :=
  match l with
  | [] => [(s, [t])]
  | (s', ts) :: r => if s' =? s then (s', t :: ts) :: r else (s', ts) :: put_sub s t r
  end.
Definition in_api (a : Z) (f : list (Z * list Z) -> list (Z * list Z)) (v : dev) : dev :=
  mkDev (map (fun e => if fst e =? a then (fst e, f (snd e)) else e) (v_apis v)) (v_max v).
Definition ex_app : application := fun v c =>
  match c with
  | AskModule a s _ => in_api a (put_slot s) v
  | AskSub a s t _ _ _ _ _ => in_api a (put_sub s t) v
  end.

Lemma ex_app_plugs : only_plugs ex_app.
Proof.
  assert (A : forall a f v b, assoc b (v_apis (in_api a f v)) =
    match assoc b (v_apis v) with Some l => Some (if b =? a then f l else l) | None => None end).
  { intros a f v b. unfold in_api. cbn [v_apis]. induction (v_apis v) as [|[b' l] r IH]; [reflexivity|]. cbn.
    destruct (b' =? a) eqn:E; cbn; destruct (Z.eqb_spec b' b); subst; rewrite ?E; auto. }
  assert (F : forall a f v, map fst (v_apis (in_api a f v)) = map fst (v_apis v)).
  { intros. unfold in_api. cbn [v_apis]. rewrite map_map. apply map_ext. intros [b l]. cbn. destruct (b =? a); reflexivity. }
  assert (P1 : forall s s0 l x, assoc s0 l = Some x -> assoc s0 (put_slot s l) = Some x).
  { intros s s0 l x. induction l as [|[s1 t] r IH]; [discriminate|]. cbn. destruct (s1 =? s) eqn:E; [auto|]. cbn.
    destruct (s1 =? s0); auto. }
  assert (P2 : forall s t s0 l x, assoc s0 l = Some x -> exists x', assoc s0 (put_sub s t l) = Some x' /\ (forall u, existsb (Z.eqb u) x = true -> existsb (Z.eqb u) x' = true)).
  { intros s t s0 l x. induction l as [|[s1 ts] r IH]; [discriminate|]. cbn. destruct (s1 =? s) eqn:E; cbn.
    - destruct (s1 =? s0); [|eauto]. intros Ex. inversion Ex; subst. eexists. split; [reflexivity|]. intros u Hu. cbn. rewrite Hu. apply orb_true_r.
    - destruct (s1 =? s0); eauto. }
  intros v [a s i|a s t mi si di ins outs]; unfold ex_app; (split; [apply F|]; split; [reflexivity|]);
    split; intros b s0; unfold has_slot, has_sub, slots_of; rewrite A; destruct (assoc b (v_apis v)) as [l|]; auto;
    destruct (b =? a); auto.
  - destruct (assoc s0 l) eqn:E; [|discriminate]. now rewrite (P1 _ _ _ _ E).
  - intros u. destruct (assoc s0 l) eqn:E; [|discriminate]. now rewrite (P1 _ _ _ _ E).
  - destruct (assoc s0 l) eqn:E; [|discriminate]. destruct (P2 s t _ _ _ E) as (x' & -> & _). reflexivity.
  - intros u. destruct (assoc s0 l) eqn:E; [|discriminate]. destruct (P2 s t _ _ _ E) as (x' & -> & H). apply H.
Qed.

Lemma wf_dec_list : forall A (P : A -> Prop) (l : list A), Forall P l -> forall x, In x l -> P x.
Proof. intros A P l H. now apply Forall_forall. Qed.

Definition ex_layouts : list layout :=
  [mkLayout [((0, 1, 1), mkIodata 0 2 2 1 0 0); ((0, 1, 3), mkIodata 3 1 4 1 6 1); ((0, 1, 2), mkIodata 0 0 0 0 5 1)] 7 0;
   mkLayout [((0, 1, 2), mkIodata 0 3 3 1 0 0); ((0, 1, 3), mkIodata 4 4 8 1 10 1); ((0, 1, 1), mkIodata 0 0 0 0 9 1)] 0 11].

Example ex_accepted : exists v', check_apdu 32 8 ex_app ex_q ex_dev = Ok (v', Accepted ex_layouts).
Proof. eexists. vm_compute. reflexivity. Qed.

Ltac in_cases := repeat match goal with
  | H : In _ (_ :: _) |- _ => destruct H as [<-|H]
  | H : In _ [] |- _ => destruct H
  | H : _ = _ \/ _ |- _ => destruct H as [<-|H]
  | H : False |- _ => destruct H end.

Lemma ex_wf : wf ex_q.
Proof.
  split; [|split].
  - intros p Hp. cbn in Hp. in_cases; unfold wf_cr, is16, is32; cbn -[Z.le Z.lt]; do 6 (split; [lia|]); intros e He; cbn in He; in_cases;
      (split; [cbn; lia|]); intros f Hf; cbn in Hf; in_cases; unfold wf_fdesc, is16; cbn; lia.
  - intros a m x d Ha Hm Hx Hd. cbn in Ha. in_cases. cbn in Hm. in_cases. cbn in Hx. in_cases; cbn in Hd; in_cases; unfold wf_ddesc, is16, is8; cbn; lia.
  - intros a m x Ha Hm Hx. cbn in Ha. in_cases. cbn in Hm. in_cases. cbn in Hx. in_cases; cbn; lia.
Qed.
Lemma ex_room : room ex_q ex_dev.
Proof. unfold room. cbn. lia. Qed.

(** * C80 *)

(** Every area of every sub-slot is inside the data length given for the
    relation, and for the classes 1 (RT_CLASS_1) and 4 (UDP) that length is within
    40 (12) and 1440.  Missing: the bound on the length for the other classes; see
    [C80_refuted]. *)
Theorem C80_partial : forall mdi cap app q v v' ys i p y k o a, wf q ->
  check_apdu mdi cap app q v = Ok (v', Accepted ys) -> nth_error (q_crs q) i = Some p -> nth_error ys i = Some y ->
  In (k, o) (y_desc y) -> In a (areas o) ->
  inside (p_sdu p) a /\ (p_class p = 1 -> 40 <= p_sdu p <= 1440) /\ (p_class p = 4 -> 12 <= p_sdu p <= 1440).
Proof.
  intros mdi cap app q v v' ys i p y k o a W H Hp Hy Hin Ha.
  destruct (accepted_relation _ _ _ _ _ _ _ _ _ _ H Hp Hy) as (C & S & _ & D).
  pose proof (layout_inv _ _ _ _ _ W (nth_error_In _ _ Hp) S _ Hin) as (I1 & I2 & I3 & I4 & I5 & I6). cbn [snd] in *.
  apply in_split in Hin. destruct Hin as (l1 & l2 & E).
  apply check_descs_none in D. destruct D as [_ D]. destruct (D _ _ _ _ E) as [(D1 & D2 & D3) _].
  assert (R : 0 <= s_off o) by (rewrite I6; apply u16_range).
  split.
  - unfold inside. unfold areas, data_area, iops_area, iocs_area in Ha. cbn in Ha. in_cases; cbn [fst snd]; lia.
  - clear -C. unfold check_cr in C. destruct (g_access (q_ar q)); [discriminate|].
    repeat match type of C with (if ?c then e_iocr ?n else _) = None => let E := fresh "E" in destruct c eqn:E; [discriminate C|] end.
    match goal with E : (_ && outside 12 1440 _ || _)%bool = false |- _ => rename E into B end.
    apply orb_false_iff in B. destruct B as [B1 B2].
    split; intros Ec; rewrite Ec in *; cbn in B1, B2; unfold outside in *;
      [apply orb_false_iff in B2; destruct B2 as [X Y]|apply orb_false_iff in B1; destruct B1 as [X Y]]; apply Z.ltb_ge in X, Y; lia.
Qed.
Print Assumptions C80_partial.

Example C80_nonvacuous : exists v' y o, check_apdu 32 8 ex_app ex_q ex_dev = Ok (v', Accepted ex_layouts) /\
  nth_error ex_layouts 1 = Some y /\ In ((0, 1, 3), o) (y_desc y) /\ In (4, 4) (areas o).
Proof. do 3 eexists. split; [vm_compute; reflexivity|]. split; [reflexivity|]. split; [right; left; reflexivity|]. now left. Qed.

(** A relation of class 2 is accepted with a length of 60000, its data ending at
    byte 50002: the frame buffers have 1500 bytes. *)
Definition big_in : crparam := ex_cr 1 2 60000 32769 3 [mkApi 0 [mkFdesc 1 1 50000; mkFdesc 1 3 3] [mkFdesc 1 2 5; mkFdesc 1 3 6]].
Definition big_q : request := mkRequest ex_ar [big_in; ex_out] [mkXapi 0 ex_mods] [ex_alarm] None false.
Theorem C80_refuted : ~ (forall mdi cap app q v v' ys i p y k o a, wf q ->
  check_apdu mdi cap app q v = Ok (v', Accepted ys) -> nth_error (q_crs q) i = Some p -> nth_error ys i = Some y ->
  In (k, o) (y_desc y) -> In a (areas o) -> fst a + snd a <= frame_buffer_size).
Proof.
  intros H.
  assert (W : wf big_q).
  { destruct ex_wf as (W1 & W2 & W3). split; [|exact (conj W2 W3)]. intros p Hp. cbn in Hp. in_cases; [|apply W1; right; now left].
    unfold wf_cr, is16, is32; cbn -[Z.le Z.lt]; do 6 (split; [lia|]); intros e He; cbn in He; in_cases;
      (split; [cbn; lia|]); intros f Hf; cbn in Hf; in_cases; unfold wf_fdesc, is16; cbn; lia. }
  specialize (H 32 8%nat ex_app big_q ex_dev).
  destruct (check_apdu 32 8 ex_app big_q ex_dev) as [[v' vd]| |] eqn:E; vm_compute in E; try discriminate.
  inversion E; subst.
  specialize (H _ _ 0%nat _ _ (0, 1, 1) (mkIodata 50000 2 50002 1 0 0) (50000, 2) W eq_refl eq_refl eq_refl).
  cbn in H. unfold frame_buffer_size in H. specialize (H (or_introl eq_refl) (or_introl eq_refl)). lia.
Qed.
Print Assumptions C80_refuted.

(** * C81 *)

(** The areas of two sub-slots have no byte in common, and neither have the data
    and the IOPS of one sub-slot.  Missing: the IOCS of a sub-slot against its own
    data and IOPS; see [C81_refuted]. *)
Theorem C81_partial : forall mdi cap app q v v' ys i p y, wf q ->
  check_apdu mdi cap app q v = Ok (v', Accepted ys) -> nth_error (q_crs q) i = Some p -> nth_error ys i = Some y ->
  NoDup (map fst (y_desc y)) /\
  (forall k o k' o' a a', In (k, o) (y_desc y) -> In (k', o') (y_desc y) -> k <> k' -> In a (areas o) -> In a' (areas o') -> apart a a') /\
  (forall k o, In (k, o) (y_desc y) -> apart (data_area o) (iops_area o)).
Proof.
  intros mdi cap app q v v' ys i p y W H Hp Hy.
  destruct (accepted_relation _ _ _ _ _ _ _ _ _ _ H Hp Hy) as (C & S & _ & D).
  apply check_descs_none in D. destruct D as [_ D]. split; [eapply layout_nodup; exact S|]. split.
  - intros k o k' o' a a' H1 H2 NE A1 A2.
    assert (G : (exists l1 l2 l3, y_desc y = l1 ++ (k, o) :: l2 ++ (k', o') :: l3) \/
                (exists l1 l2 l3, y_desc y = l1 ++ (k', o') :: l2 ++ (k, o) :: l3)).
    { apply in_split in H1. destruct H1 as (l1 & l2 & E). rewrite E in H2. apply in_app_or in H2.
      destruct H2 as [H2|[H2|H2]]; [|congruence|]; apply in_split in H2; destruct H2 as (m1 & m2 & ->).
      - right. exists m1, m2, l2. rewrite E, <- app_assoc. reflexivity.
      - left. exists l1, m1, m2. exact E. }
    destruct G as [(l1 & l2 & l3 & E)|(l1 & l2 & l3 & E)].
    + assert (E2 : y_desc y = (l1 ++ (k, o) :: l2) ++ (k', o') :: l3) by (rewrite E, <- app_assoc; reflexivity).
      destruct (D _ _ _ _ E2) as [_ O]. apply apart_sym. eapply check_overlap_apart; [exact O| |exact A2|exact A1].
      cbn [Datatypes.app]. apply in_or_app. right. now left.
    + assert (E2 : y_desc y = (l1 ++ (k', o') :: l2) ++ (k, o) :: l3) by (rewrite E, <- app_assoc; reflexivity).
      destruct (D _ _ _ _ E2) as [_ O]. eapply check_overlap_apart; [exact O| |exact A1|exact A2].
      cbn [Datatypes.app]. apply in_or_app. right. now left.
  - intros k o Hin. pose proof (layout_inv _ _ _ _ _ W (nth_error_In _ _ Hp) S _ Hin) as (I1 & I2 & I3 & I4 & I5 & I6). cbn [snd] in *.
    apply in_split in Hin. destruct Hin as (l1 & l2 & E). destruct (D _ _ _ _ E) as [(D1 & D2 & D3) _].
    destruct W as (W1 & _). destruct (W1 p (nth_error_In _ _ Hp)) as (W2 & _). unfold is16 in W2.
    rewrite u16_id in I6 by lia. unfold apart, covers, data_area, iops_area. cbn. intros b. lia.
Qed.
Print Assumptions C81_partial.

(** A request is accepted in which the IOCS byte of a sub-slot is the first byte of
    its own data. *)
Definition self_in : crparam := ex_cr 1 1 40 49153 3 [mkApi 0 [mkFdesc 1 1 0; mkFdesc 1 3 3] [mkFdesc 1 2 5; mkFdesc 1 3 3]].
Definition self_q : request := mkRequest ex_ar [self_in; ex_out] [mkXapi 0 ex_mods] [ex_alarm] None false.

Lemma wf_in : forall c e m, wf_cr c -> e = [mkXapi 0 ex_mods] -> wf (mkRequest ex_ar [c; ex_out] e m None false).
Proof.
  intros c e m Wc ->. destruct ex_wf as (W1 & W2 & W3). split; [|exact (conj W2 W3)]. cbn [q_crs]. intros p Hp. in_cases; [assumption|].
  apply W1. right. now left.
Qed.
Ltac wfcr := unfold wf_cr, is16, is32; cbn -[Z.le Z.lt]; do 6 (split; [lia|]); intros e He; cbn in He; in_cases;
      (split; [cbn; lia|]); intros f Hf; cbn in Hf; in_cases; unfold wf_fdesc, is16; cbn; lia.

Theorem C81_refuted : ~ (forall mdi cap app q v v' ys i p y k o a, wf q ->
  check_apdu mdi cap app q v = Ok (v', Accepted ys) -> nth_error (q_crs q) i = Some p -> nth_error ys i = Some y ->
  In (k, o) (y_desc y) -> In a [data_area o; iops_area o] -> apart (iocs_area o) a).
Proof.
  intros H. assert (W : wf self_q) by (apply wf_in; [wfcr|reflexivity]).
  specialize (H 32 8%nat ex_app self_q ex_dev).
  destruct (check_apdu 32 8 ex_app self_q ex_dev) as [[v' vd]| |] eqn:E; vm_compute in E; try discriminate.
  inversion E; subst.
  specialize (H _ _ 0%nat _ _ (0, 1, 3) (mkIodata 3 1 4 1 3 1) (3, 1) W eq_refl eq_refl eq_refl).
  cbn in H. specialize (H (or_intror (or_introl eq_refl)) (or_introl eq_refl)).
  apply (H 3). unfold covers, iocs_area; cbn. lia.
Qed.
Print Assumptions C81_refuted.

(** * C83 *)

Theorem C83_no_overflow : forall mdi na ns nt app q v, fits na ns nt q ->
  exists r, check_apdu mdi (na * ns * nt) app q v = Ok r.
Proof.
  intros mdi na ns nt app q v F. unfold check_apdu. destruct (check_ar _); [eauto|]. destruct (check_crs _ _ _ _); [eauto|].
  destruct (exp_configure app q v) as [v1 [e|]]; [eauto|].
  assert (S : forall crs, exists r, setup_all (na * ns * nt) (q_exp q) crs = Ok r).
  { induction crs as [|p r (r' & IH)]; cbn [setup_all]; [eauto|].
    destruct (setup_desc_ok na ns nt q p F) as (y & b & ->). cbn [obind]. destruct b; [|eauto]. rewrite IH. cbn [obind]. eauto. }
  destruct (S (q_crs q)) as (r & ->). cbn [obind]. destruct r; [|eauto].
  destruct (check_apis _ _ _); [eauto|]. destruct (check_counts q); [eauto|].
  destruct (match rev _ with [] => _ | _ => _ end); [eauto|]. destruct (match q_rpc q with Some _ => _ | _ => _ end); eauto.
Qed.
Print Assumptions C83_no_overflow.

Example C83_nonvacuous : fits 1 1 3 ex_q /\ exists v', check_apdu 32 (1 * 1 * 3) ex_app ex_q ex_dev = Ok (v', Accepted ex_layouts).
Proof.
  split; [|eexists; vm_compute; reflexivity]. split; [cbn; lia|]. intros a Ha. cbn in Ha. in_cases. split; [cbn; lia|].
  intros m Hm. cbn in Hm. in_cases. cbn. lia.
Qed.
(** The bound is needed: with a table for two sub-slots the third one overflows. *)
Example C83_bound : check_apdu 32 2 ex_app ex_q ex_dev = Ub.
Proof. vm_compute. reflexivity. Qed.

(** * C84 *)

(** Everything expected is in order if the device has room for all its APIs (and
    the application only plugs).  Missing: an API without room is passed over; see
    [C84_refuted]. *)
Theorem C84_partial : forall mdi cap app q v v' ys, wf q -> only_plugs app -> room q v ->
  check_apdu mdi cap app q v = Ok (v', Accepted ys) ->
  q_exp q <> [] /\ forall x, In x (q_exp q) -> api_ok v' (q_crs q) x.
Proof.
  intros mdi cap app q v v' ys W A R H. split; [|eapply accepted_expected; eassumption].
  apply check_apdu_accepted in H. destruct H as (H0 & _ & H & _). unfold exp_configure in H.
  intros E. rewrite E in H. cbn in H. rewrite andb_true_r in H.
  destruct (g_access (q_ar q)) eqn:G; [|discriminate]. unfold check_ar in H0. rewrite G in H0.
  destruct (Z.eqb_spec (g_type (q_ar q)) 1) as [T|T]; [|discriminate]. rewrite T in H0. cbn in H0.
  repeat match type of H0 with (if ?c then _ else _) = None => destruct c; [discriminate H0|] end. discriminate.
Qed.
Print Assumptions C84_partial.

Example C84_nonvacuous : exists v', wf ex_q /\ only_plugs ex_app /\ room ex_q ex_dev /\
  check_apdu 32 8 ex_app ex_q ex_dev = Ok (v', Accepted ex_layouts) /\ has_sub ex_dev 0 1 3 = false /\ has_sub v' 0 1 3 = true.
Proof.
  eexists. split; [exact ex_wf|]. split; [exact ex_app_plugs|]. split; [exact ex_room|].
  split; [vm_compute; reflexivity|]. split; reflexivity.
Qed.

(** The same request for API 5, which the device has no room for, is accepted
    although nothing is plugged, and even if the module identification is 0. *)
Definition lost_api (p : crparam) : crparam :=
  mkCrparam (p_type p) (p_lt p) (p_class p) (p_res1 p) (p_res3 p) (p_sdu p) (p_fid p) (p_scf p) (p_rr p) (p_phase p) (p_fso p)
    (p_hold p) (p_vlan p) (p_prio p) (p_mac p) (map (fun e => mkApi 5 (ae_data e) (ae_iocs e)) (p_apis p)).
Definition lost_q : request := mkRequest ex_ar [lost_api ex_in; lost_api ex_out] [mkXapi 5 ex_mods] [ex_alarm] None false.
Theorem C84_refuted : ~ (forall mdi cap app q v v' ys, wf q -> only_plugs app ->
  check_apdu mdi cap app q v = Ok (v', Accepted ys) ->
  forall xa xm x, In xa (q_exp q) -> In xm (xa_mods xa) -> In x (xm_subs xm) -> has_sub v' (xa_api xa) (xm_slot xm) (xs_subslot x) = true).
Proof.
  intros H. assert (W : wf lost_q).
  { split; [|split].
    - intros p Hp. cbn in Hp. in_cases; wfcr.
    - intros a m x d Ha Hm Hx Hd. cbn in Ha. in_cases. cbn in Hm. in_cases. cbn in Hx. in_cases; cbn in Hd; in_cases; unfold wf_ddesc, is16, is8; cbn; lia.
    - intros a m x Ha Hm Hx. cbn in Ha. in_cases. cbn in Hm. in_cases. cbn in Hx. in_cases; cbn; lia. }
  specialize (H 32 8%nat ex_app lost_q ex_dev).
  destruct (check_apdu 32 8 ex_app lost_q ex_dev) as [[v' vd]| |] eqn:E; vm_compute in E; try discriminate.
  inversion E; subst. specialize (H _ _ W ex_app_plugs eq_refl _ _ _ (or_introl eq_refl) (or_introl eq_refl) (or_introl eq_refl)).
  vm_compute in H. discriminate.
Qed.
Print Assumptions C84_refuted.
