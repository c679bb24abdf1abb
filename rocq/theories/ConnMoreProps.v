(** Further theorems about connect requests: C82, C85, C86, C88, C89. *)
From Coq Require Import List ZArith Arith Bool Lia.
From Verif Require Import Base CpmModel BlockModel PpmModel ConnModel ConnSpec ConnLemmas ConnExp ConnLayout ConnProps.
Import ListNotations.
Local Open Scope Z_scope.

(** * C82 *)

(** No expected submodule has one of the properties "reduce data length" and
    "discard". *)
Definition plain (q : request) : Prop := forall a s t x, expected q a s t x ->
  xs_discard x = false /\ xs_redin x = false /\ xs_redout x = false.

Lemma get_exp_sub_expected : forall q a s t x, get_exp_sub (q_exp q) a s t = Some x -> expected q a s t x.
Proof. intros q a s t x H. apply get_exp_sub_in in H. exact H. Qed.

Lemma exp_desc_data : forall x input, descs_ok x -> (input = true -> xs_type x <> 2) -> (input = false -> xs_type x <> 0 /\ xs_type x <> 1) ->
  exists d, exp_desc x input true = Some d /\ dd_dir d = (if input then 1 else 2).
Proof.
  intros x input D H1 H2. unfold exp_desc, desc_direction.
  destruct D as [(T & d & E & Dd & _)|[(T & d & E & Dd)|[(T & d & E & Dd)|(T & d1 & d2 & Dd1 & Dd2 & E)]]]; rewrite T in *.
  - destruct input; [|now destruct (H2 eq_refl)]. cbn. rewrite E. cbn. unfold is_dir. rewrite Dd. cbn. eauto.
  - destruct input; [|now destruct (H2 eq_refl)]. cbn. rewrite E. cbn. unfold is_dir. rewrite Dd. cbn. eauto.
  - destruct input; [now destruct (H1 eq_refl)|]. cbn. rewrite E. cbn. unfold is_dir. rewrite Dd. cbn. eauto.
  - destruct input; cbn; destruct E as [-> | ->]; cbn; unfold is_dir; rewrite Dd1, Dd2; cbn; rewrite ?Dd1, ?Dd2; cbn; eauto.
Qed.

Lemma exp_desc_iocs : forall x input, descs_ok x -> (input = false -> xs_type x <> 2) -> (input = true -> xs_type x <> 0 /\ xs_type x <> 1) ->
  exists d, exp_desc x input false = Some d /\ dd_dir d = (if input then 2 else 1).
Proof.
  intros x input D H1 H2. unfold exp_desc, desc_direction.
  destruct D as [(T & d & E & Dd & _)|[(T & d & E & Dd)|[(T & d & E & Dd)|(T & d1 & d2 & Dd1 & Dd2 & E)]]]; rewrite T in *.
  - destruct input; [now destruct (H2 eq_refl)|]. cbn. rewrite E. cbn. unfold is_dir. rewrite Dd. cbn. eauto.
  - destruct input; [now destruct (H2 eq_refl)|]. cbn. rewrite E. cbn. unfold is_dir. rewrite Dd. cbn. eauto.
  - destruct input; [|now destruct (H1 eq_refl)]. cbn. rewrite E. cbn. unfold is_dir. rewrite Dd. cbn. eauto.
  - destruct input; cbn; destruct E as [-> | ->]; cbn; unfold is_dir; rewrite Dd1, Dd2; cbn; rewrite ?Dd1, ?Dd2; cbn; eauto.
Qed.

Lemma cr_type : forall mdi g p, check_cr mdi g p = None -> 1 <= p_type p <= 4.
Proof.
  intros mdi g p H. unfold check_cr in H. destruct (g_access g); [discriminate|].
  destruct (Z.ltb_spec (p_type p) 1); [discriminate|]. destruct (Z.ltb_spec 4 (p_type p)); [discriminate|]. lia.
Qed.

Lemma input_types : forall p, 1 <= p_type p <= 4 -> (is_input p = true /\ (p_type p = 1 \/ p_type p = 3)) \/ (is_input p = false /\ (p_type p = 2 \/ p_type p = 4)).
Proof.
  intros p H. unfold is_input. destruct (Z.eqb_spec (p_type p) 1), (Z.eqb_spec (p_type p) 3); cbn; lia.
Qed.

(** The expected submodule of a data entry of an accepted relation. *)
Lemma accepted_data_sub : forall mdi cap app q v v' ys i p y e f, wf q -> only_plugs app -> room q v ->
  check_apdu mdi cap app q v = Ok (v', Accepted ys) -> nth_error (q_crs q) i = Some p -> nth_error ys i = Some y ->
  In e (p_apis p) -> In f (ae_data e) ->
  exists x d, get_exp_sub (q_exp q) (ae_api e) (fd_slot f) (fd_subslot f) = Some x /\ exp_desc x (is_input p) true = Some d /\
    dd_dir d = (if is_input p then 1 else 2) /\ In d (xs_descs x) /\ dd_len d <= 1439 /\ dd_iops d = 1 /\ dd_iocs d = 1.
Proof.
  intros mdi cap app q v v' ys i p y e f W A R H Hp Hy He Hf.
  pose proof (accepted_expected _ _ _ _ _ _ _ W A R H) as X.
  destruct (accepted_relation _ _ _ _ _ _ _ _ _ _ H Hp Hy) as (C & S & CE & _).
  destruct (check_entry_none _ _ _ (CE e He)) as (xa & G & _ & _ & _ & CD & _). specialize (CD f Hf).
  unfold check_data1 in CD. destruct (last_mod xa (fd_slot f)) as [m|] eqn:Em; [|discriminate].
  destruct (last_sub m (fd_subslot f)) as [u|] eqn:Eu; [|discriminate].
  assert (Hxa : In xa (q_exp q)) by (unfold get_exp_api in G; now apply find_some in G).
  pose proof (last_is_first _ _ _ _ _ _ _ _ _ G (X xa Hxa) Em Eu) as GS.
  destruct (X xa Hxa) as (_ & XO).
  assert (Hm : In m (xa_mods xa)) by (unfold last_mod in Em; apply find_some in Em; apply in_rev; apply Em).
  assert (Hu : In u (xm_subs m)) by (unfold last_sub in Eu; apply find_some in Eu; apply in_rev; apply Eu).
  destruct (XO m Hm) as (_ & _ & _ & _ & _ & SO). destruct (SO u Hu) as (_ & _ & _ & _ & DO & DL).
  destruct (exp_desc_data u (is_input p) DO) as (d & Ed & Dd).
  - intros I T. rewrite T in CD. destruct (input_types p (cr_type _ _ _ C)) as [[_ [P|P]]|[I2 _]]; [| |congruence]; rewrite P in CD; discriminate.
  - intros I. destruct (input_types p (cr_type _ _ _ C)) as [[I2 _]|[_ P]]; [congruence|].
    split; intros T; rewrite T in CD; destruct P as [P|P]; rewrite P in CD; discriminate.
  - exists u, d. split; [assumption|]. split; [assumption|]. split; [assumption|].
    pose proof (exp_desc_in _ _ _ _ Ed) as Hd. split; [assumption|]. now apply DL.
Qed.

Lemma accepted_iocs_sub : forall mdi cap app q v v' ys i p y e f, wf q -> only_plugs app -> room q v ->
  check_apdu mdi cap app q v = Ok (v', Accepted ys) -> nth_error (q_crs q) i = Some p -> nth_error ys i = Some y ->
  p_type p <= 2 -> In e (p_apis p) -> In f (ae_iocs e) ->
  exists x d, get_exp_sub (q_exp q) (ae_api e) (fd_slot f) (fd_subslot f) = Some x /\ exp_desc x (is_input p) false = Some d /\
    dd_dir d = (if is_input p then 2 else 1) /\ In d (xs_descs x) /\ dd_iocs d = 1.
Proof.
  intros mdi cap app q v v' ys i p y e f W A R H Hp Hy T2 He Hf.
  pose proof (accepted_expected _ _ _ _ _ _ _ W A R H) as X.
  destruct (accepted_relation _ _ _ _ _ _ _ _ _ _ H Hp Hy) as (C & S & CE & _).
  destruct (check_entry_none _ _ _ (CE e He)) as (xa & G & _ & _ & _ & _ & CD). specialize (CD f Hf).
  unfold check_iocs1 in CD. destruct (last_mod xa (fd_slot f)) as [m|] eqn:Em; [|discriminate].
  destruct (last_sub m (fd_subslot f)) as [u|] eqn:Eu; [|discriminate].
  assert (Hxa : In xa (q_exp q)) by (unfold get_exp_api in G; now apply find_some in G).
  pose proof (last_is_first _ _ _ _ _ _ _ _ _ G (X xa Hxa) Em Eu) as GS.
  destruct (X xa Hxa) as (_ & XO).
  assert (Hm : In m (xa_mods xa)) by (unfold last_mod in Em; apply find_some in Em; apply in_rev; apply Em).
  assert (Hu : In u (xm_subs m)) by (unfold last_sub in Eu; apply find_some in Eu; apply in_rev; apply Eu).
  destruct (XO m Hm) as (_ & _ & _ & _ & _ & SO). destruct (SO u Hu) as (_ & _ & _ & _ & DO & DL).
  pose proof (cr_type _ _ _ C) as CT.
  destruct (exp_desc_iocs u (is_input p) DO) as (d & Ed & Dd).
  - intros I T. rewrite T in CD. destruct (input_types p CT) as [[I2 _]|[_ [P|P]]]; [congruence| |lia]. rewrite P in CD. discriminate.
  - intros I. destruct (input_types p CT) as [[_ [P|P]]|[I2 _]]; [|lia|congruence].
    split; intros T; rewrite T, P in CD; discriminate.
  - exists u, d. split; [assumption|]. split; [assumption|]. split; [assumption|].
    pose proof (exp_desc_in _ _ _ _ Ed) as Hd. split; [assumption|]. now apply DL.
Qed.

Lemma accepted_keys : forall mdi cap app q v v' ys i p y,
  check_apdu mdi cap app q v = Ok (v', Accepted ys) -> nth_error (q_crs q) i = Some p -> nth_error ys i = Some y ->
  NoDup (map ae_api (p_apis p)) -> NoDup (keys_of ae_data (p_apis p)) /\ NoDup (keys_of ae_iocs (p_apis p)).
Proof.
  intros mdi cap app q v v' ys i p y H Hp Hy N.
  destruct (accepted_relation _ _ _ _ _ _ _ _ _ _ H Hp Hy) as (_ & _ & CE & _).
  split; apply keys_nodup; auto; intros e He; destruct (check_entry_none _ _ _ (CE e He)) as (xa & _ & _ & N1 & N2 & _); assumption.
Qed.

Lemma fkey_inj : forall a f s t, fkey a f = (a, s, t) -> f = mkFdesc s t (fd_offset f).
Proof. intros a [s' t' o] s t H. unfold fkey in H. cbn in *. congruence. Qed.

(** For requests without "reduce" and "discard" flags, and relations that name
    each API once: each data entry has its data area at the offset of the entry
    with the declared length and the IOPS byte directly after it; each IOCS entry
    has its IOCS byte there; the table has one line per sub-slot, and no area
    without entry.  Missing: those flags, APIs named twice, and IOCS entries of
    multicast relations; see the refutations below. *)
Theorem C82_partial : forall mdi cap app q v v' ys i p y, wf q -> only_plugs app -> room q v -> plain q ->
  check_apdu mdi cap app q v = Ok (v', Accepted ys) -> nth_error (q_crs q) i = Some p -> nth_error ys i = Some y ->
  NoDup (map ae_api (p_apis p)) ->
  NoDup (map fst (y_desc y)) /\
  (forall a s t off, data_entry p a s t off -> exists x d o, expected q a s t x /\ In d (xs_descs x) /\
     dd_dir d = (if is_input p then 1 else 2) /\ In ((a, s, t), o) (y_desc y) /\
     data_area o = (off, dd_len d) /\ iops_area o = (off + dd_len d, 1)) /\
  (p_type p <= 2 -> forall a s t off, iocs_entry p a s t off -> exists o, In ((a, s, t), o) (y_desc y) /\ iocs_area o = (off, 1)) /\
  (forall a s t o, In ((a, s, t), o) (y_desc y) ->
     (d_len o <> 0 \/ s_len o <> 0 -> data_entry p a s t (d_off o)) /\
     (k_len o <> 0 -> iocs_entry p a s t (k_off o))).
Proof.
  intros mdi cap app q v v' ys i p y W A R PL H Hp Hy N.
  destruct (accepted_relation _ _ _ _ _ _ _ _ _ _ H Hp Hy) as (C & S & _ & _).
  destruct (accepted_keys _ _ _ _ _ _ _ _ _ _ H Hp Hy N) as [N1 N2].
  split; [eapply layout_nodup; exact S|]. split; [|split].
  - intros a s t off (e & He & Ea & Hf).
    destruct (accepted_data_sub _ _ _ _ _ _ _ _ _ _ _ _ W A R H Hp Hy He Hf) as (x & d & G & Ed & Dd & Hd & L1 & L2 & L3).
    cbn [fd_slot fd_subslot] in G. rewrite Ea in G.
    destruct (PL _ _ _ _ (get_exp_sub_expected _ _ _ _ _ G)) as (P1 & P2 & P3).
    assert (Hc : In ((a, s, t), data_part (is_input p) x d off) (data_changes (q_exp q) (is_input p) (p_apis p))).
    { unfold data_changes. apply in_flat_map. exists e. split; [assumption|]. apply in_flat_map. exists (mkFdesc s t off). split; [assumption|].
      unfold gdata. cbn [fd_slot fd_subslot]. rewrite Ea, G, Ed. now left. }
    destruct (layout_data _ _ _ _ _ _ _ S N1 N2 Hc) as (o & Ho & V).
    exists x, d, o. split; [now apply get_exp_sub_expected|]. do 2 (split; [assumption|]). split; [assumption|].
    assert (V' : d_off o = off /\ d_len o = dd_len d /\ s_off o = u16 (off + dd_len d) /\ s_len o = 1).
    { assert (V0 : forall o1, data_part (is_input p) x d off desc0 = o1 ->
        d_off o1 = off /\ d_len o1 = dd_len d /\ s_off o1 = u16 (off + dd_len d) /\ s_len o1 = 1).
      { intros o1 <-. unfold data_part. rewrite P1, P2, P3, !andb_false_r. cbn. auto. }
      destruct V as [->|(g & Hg & ->)]; [now apply V0|].
      unfold iocs_changes in Hg. apply in_flat_map in Hg. destruct Hg as (e2 & _ & Hg). apply in_flat_map in Hg. destruct Hg as (f2 & _ & Hg).
      unfold giocs in Hg. destruct (get_exp_sub _ _ _ _) as [x2|] in Hg; [|destruct Hg]. destruct (exp_desc _ _ _) in Hg; [|destruct Hg].
      destruct Hg as [Hg|[]]. inversion Hg; subst. unfold iocs_part. specialize (V0 _ eq_refl).
      destruct (xs_discard x2); cbn; exact V0. }
    destruct V' as (V1 & V2 & V3 & V4).
    destruct (C80_partial _ _ _ _ _ _ _ _ _ _ _ _ (data_area o) W H Hp Hy Ho (or_introl eq_refl)) as ((I1 & I2 & I3) & _).
    unfold data_area in I1, I2, I3. cbn in I1, I2, I3.
    destruct W as (W1 & _). destruct (W1 p (nth_error_In _ _ Hp)) as (W2 & _). unfold is16 in W2.
    unfold data_area, iops_area. rewrite V3, u16_id by lia. rewrite V1, V2, V4. auto.
  - intros T2 a s t off (e & He & Ea & Hf).
    destruct (accepted_iocs_sub _ _ _ _ _ _ _ _ _ _ _ _ W A R H Hp Hy T2 He Hf) as (x & d & G & Ed & Dd & Hd & L3).
    cbn [fd_slot fd_subslot] in G. rewrite Ea in G.
    destruct (PL _ _ _ _ (get_exp_sub_expected _ _ _ _ _ G)) as (P1 & P2 & P3).
    assert (Hc : In ((a, s, t), iocs_part x d off) (iocs_changes (q_exp q) (is_input p) (p_apis p))).
    { unfold iocs_changes. apply in_flat_map. exists e. split; [assumption|]. apply in_flat_map. exists (mkFdesc s t off). split; [assumption|].
      unfold giocs. cbn [fd_slot fd_subslot]. rewrite Ea, G, Ed. now left. }
    destruct (layout_iocs _ _ _ _ _ _ _ S N2 Hc) as (o & o1 & Ho & ->).
    eexists. split; [exact Ho|]. unfold iocs_part, iocs_area. rewrite P1. cbn. now rewrite L3.
  - intros a s t o Ho. apply in_look in Ho; [|eapply layout_nodup; exact S].
    destruct (layout_value _ _ _ _ _ S N1 N2 _ _ Ho) as (o1 & X1 & X2).
    assert (Y1 : (d_len o1 <> 0 \/ s_len o1 <> 0 -> data_entry p a s t (d_off o1)) /\ k_len o1 = 0).
    { destruct X1 as [[-> _]|(f & Hf & ->)]; [cbn; split; [intros [?|?]; congruence|reflexivity]|].
      unfold data_changes in Hf. apply in_flat_map in Hf. destruct Hf as (e & He & Hf). apply in_flat_map in Hf. destruct Hf as (fd & Hfd & Hf).
      unfold gdata in Hf. destruct (get_exp_sub _ _ _ _) as [x|] eqn:G; [|destruct Hf]. destruct (exp_desc _ _ _) as [d|]; [|destruct Hf].
      destruct Hf as [Hf|[]]. inversion Hf; subst.
      destruct (PL _ _ _ _ (get_exp_sub_expected _ _ _ _ _ G)) as (P1 & P2 & P3).
      unfold data_part. rewrite P1, P2, P3, !andb_false_r. cbn. split; [|reflexivity]. intros _. exists e. do 2 (split; [auto|]).
      now destruct fd. }
    destruct Y1 as [Y1 Y2]. destruct X2 as [[-> _]|(f & Hf & ->)]; [split; [assumption|congruence]|].
    unfold iocs_changes in Hf. apply in_flat_map in Hf. destruct Hf as (e & He & Hf). apply in_flat_map in Hf. destruct Hf as (fd & Hfd & Hf).
    unfold giocs in Hf. destruct (get_exp_sub _ _ _ _) as [x|] eqn:G; [|destruct Hf]. destruct (exp_desc _ _ _) as [d|]; [|destruct Hf].
    destruct Hf as [Hf|[]]. inversion Hf; subst.
    destruct (PL _ _ _ _ (get_exp_sub_expected _ _ _ _ _ G)) as (P1 & P2 & P3).
    unfold iocs_part. rewrite P1. cbn. split; [assumption|]. intros _. exists e. do 2 (split; [auto|]). now destruct fd.
Qed.
Print Assumptions C82_partial.

Lemma ex_plain : plain ex_q.
Proof.
  intros a s t x (xa & xm & H1 & _ & H2 & _ & H3 & _). cbn in H1. in_cases. cbn in H2. in_cases. cbn in H3. in_cases; auto.
Qed.
Example C82_nonvacuous : exists v', wf ex_q /\ only_plugs ex_app /\ room ex_q ex_dev /\ plain ex_q /\
  check_apdu 32 8 ex_app ex_q ex_dev = Ok (v', Accepted ex_layouts) /\ NoDup (map ae_api (p_apis ex_in)) /\
  data_entry ex_in 0 1 3 3 /\ iocs_entry ex_in 0 1 2 5.
Proof.
  eexists. split; [exact ex_wf|]. split; [exact ex_app_plugs|]. split; [exact ex_room|]. split; [exact ex_plain|].
  split; [vm_compute; reflexivity|]. split; [cbn; constructor; [intros []|constructor]|]. split; exists (hd (mkApi 0 [] []) (p_apis ex_in)); cbn; auto 10.
Qed.

(** A sub-slot with "discard" has no data area although the relation has a data
    entry for it (the flag is accepted just for submodules with data). *)
Definition disc_mods : list xmod :=
  [mkXmod 1 5 [mkXsub 1 10 1 false false false false [mkDdesc 1 2 1 1];
               mkXsub 2 11 2 false false false false [mkDdesc 2 3 1 1];
               mkXsub 3 12 3 false false false true [mkDdesc 1 1 1 1; mkDdesc 2 4 1 1]]].
Definition disc_q : request := mkRequest ex_ar [ex_in; ex_out] [mkXapi 0 disc_mods] [ex_alarm] None false.
Theorem C82_discard_refuted : exists v' ys y, wf disc_q /\
  check_apdu 32 8 ex_app disc_q ex_dev = Ok (v', Accepted ys) /\ nth_error ys 0 = Some y /\
  data_entry ex_in 0 1 3 3 /\ (forall o, In ((0, 1, 3), o) (y_desc y) -> data_area o = (0, 0) /\ iops_area o = (0, 0) /\ iocs_area o = (0, 0)).
Proof.
  do 3 eexists. split; [|split; [vm_compute; reflexivity|split; [reflexivity|split]]].
  - destruct ex_wf as (W1 & _). split; [exact W1|]. split.
    + intros a m x d Ha Hm Hx Hd. cbn in Ha. in_cases. cbn in Hm. in_cases. cbn in Hx. in_cases; cbn in Hd; in_cases; unfold wf_ddesc, is16, is8; cbn; lia.
    + intros a m x Ha Hm Hx. cbn in Ha. in_cases. cbn in Hm. in_cases. cbn in Hx. in_cases; cbn; lia.
  - exists (hd (mkApi 0 [] []) (p_apis ex_in)); cbn; auto 10.
  - intros o Ho. cbn in Ho. destruct Ho as [Ho|[Ho|[Ho|[]]]]; inversion Ho; subst; auto.
Qed.
Print Assumptions C82_discard_refuted.

(** Two API entries with the same number: the first entry for the sub-slot is
    silently replaced by the second. *)
Definition twice_in : crparam := ex_cr 1 1 40 49153 3
  [mkApi 0 [mkFdesc 1 1 0; mkFdesc 1 3 3] [mkFdesc 1 2 5; mkFdesc 1 3 6]; mkApi 0 [mkFdesc 1 1 20] []].
Definition twice_q : request := mkRequest ex_ar [twice_in; ex_out] [mkXapi 0 ex_mods] [ex_alarm] None false.
Theorem C82_twice_refuted : exists v' ys y, wf twice_q /\
  check_apdu 32 8 ex_app twice_q ex_dev = Ok (v', Accepted ys) /\ nth_error ys 0 = Some y /\
  data_entry twice_in 0 1 1 0 /\ (forall o, In ((0, 1, 1), o) (y_desc y) -> data_area o = (20, 2)).
Proof.
  do 3 eexists. split; [apply wf_in; [wfcr|reflexivity]|split; [vm_compute; reflexivity|split; [reflexivity|split]]].
  - exists (hd (mkApi 0 [] []) (p_apis twice_in)); cbn; auto 10.
  - intros o Ho. cbn in Ho. destruct Ho as [Ho|[Ho|[Ho|[]]]]; inversion Ho; subst; auto.
Qed.
Print Assumptions C82_twice_refuted.

(** "Reduce input data length" moves the IOPS byte to the start of the frame. *)
Definition red_mods : list xmod := [mkXmod 1 5 [mkXsub 1 10 0 false true false false [mkDdesc 1 0 1 1]; mkXsub 2 11 2 false false false false [mkDdesc 2 3 1 1]]].
Definition red_in : crparam := ex_cr 1 1 40 49153 3 [mkApi 0 [mkFdesc 1 1 7] [mkFdesc 1 2 5]].
Definition red_out : crparam := ex_cr 2 1 40 65535 3 [mkApi 0 [mkFdesc 1 2 0] [mkFdesc 1 1 9]].
Definition red_q : request := mkRequest ex_ar [red_in; red_out] [mkXapi 0 red_mods] [ex_alarm] None false.
Theorem C82_reduce_refuted : exists v' ys y, wf red_q /\
  check_apdu 32 8 ex_app red_q ex_dev = Ok (v', Accepted ys) /\ nth_error ys 0 = Some y /\
  data_entry red_in 0 1 1 7 /\ (forall o, In ((0, 1, 1), o) (y_desc y) -> iops_area o = (0, 1)).
Proof.
  do 3 eexists. split; [|split; [vm_compute; reflexivity|split; [reflexivity|split]]].
  - split; [|split].
    + intros p Hp. cbn in Hp. in_cases; wfcr.
    + intros a m x d Ha Hm Hx Hd. cbn in Ha. in_cases. cbn in Hm. in_cases. cbn in Hx. in_cases; cbn in Hd; in_cases; unfold wf_ddesc, is16, is8; cbn; lia.
    + intros a m x Ha Hm Hx. cbn in Ha. in_cases. cbn in Hm. in_cases. cbn in Hx. in_cases; cbn; lia.
  - exists (hd (mkApi 0 [] []) (p_apis red_in)); cbn; auto 10.
  - intros o Ho. cbn in Ho. destruct Ho as [Ho|[Ho|[]]]; inversion Ho; subst; auto.
Qed.
Print Assumptions C82_reduce_refuted.

(** * C85 *)

(** All times are in units of 31.25 us.  For the classes 1-3 the send interval is
    at least the minimum device interval, and the data hold time is at most
    1.92 s (61440 units) - provided that the product does not exceed 32 bits;
    likewise 61.44 s over UDP.  Missing: see [C85_refuted], and class 5 is not
    limited at all. *)
Theorem C85_partial : forall mdi cap app q v v' ys p, wf q -> check_apdu mdi cap app q v = Ok (v', Accepted ys) -> In p (q_crs q) ->
  (1 <= p_class p <= 3 -> mdi <= p_scf p * p_rr p) /\
  (p_hold p * p_rr p * p_scf p * 1000 < 4294967296 ->
     (1 <= p_class p <= 3 -> p_hold p * (p_rr p * p_scf p) <= 61440) /\
     (p_class p = 4 -> p_hold p * (p_rr p * p_scf p) <= 1966080)).
Proof.
  intros mdi cap app q v v' ys p (W & _) H Hp. apply check_apdu_accepted in H. destruct H as (_ & H & _). specialize (H p Hp).
  destruct (W p Hp) as (_ & _ & W3 & W4 & _ & W6 & _). unfold is16 in *. unfold check_cr in H.
  destruct (g_access (q_ar q)); [discriminate|].
  repeat match type of H with (if ?c then e_iocr ?n else _) = None => let E := fresh "E" in destruct c eqn:E; [discriminate H|] end.
  match goal with E : (_ && (outside 1 512 _ || _ || _ || _))%bool = false |- _ => rename E into B1 end.
  match goal with E : (outside 1 7680 _ || _ || _)%bool = false |- _ => rename E into B2 end. clear -B1 B2 W3 W4 W6.
  apply orb_false_iff in B2. destruct B2 as [B2 B3]. apply orb_false_iff in B2. destruct B2 as [_ B2].
  assert (T : forall c, 1 <= c <= 3 -> ((c =? 1) || (c =? 2) || (c =? 3))%bool = true).
  { intros c Hc. destruct (Z.eqb_spec c 1); [reflexivity|]. destruct (Z.eqb_spec c 2); [reflexivity|]. destruct (Z.eqb_spec c 3); [reflexivity|lia]. }
  split.
  - intros Hc. rewrite (T _ Hc) in B1. cbn [andb] in B1. apply orb_false_iff in B1. destruct B1 as [_ B1]. now apply Z.ltb_ge in B1.
  - intros Hw. set (n := p_hold p * p_rr p * p_scf p) in *.
    assert (N : 0 <= p_hold p * p_rr p /\ 0 <= n) by (unfold n; nia). destruct N as [N0 N1].
    assert (M : p_hold p * p_rr p <= n \/ p_scf p = 0) by (destruct (Z.eq_dec (p_scf p) 0); [tauto|left; unfold n; nia]).
    assert (Q : u32 (u32 (u32 (p_hold p * p_rr p) * p_scf p) * 1000) = n * 1000).
    { destruct M as [M|M].
      - rewrite (u32_id (p_hold p * p_rr p)) by lia. fold n. rewrite (u32_id n) by lia. apply u32_id. lia.
      - unfold n. rewrite M. rewrite !Z.mul_0_r. reflexivity. }
    rewrite Q in B2, B3. replace (p_hold p * (p_rr p * p_scf p)) with n by (unfold n; ring). split; intros Hc.
    + rewrite (T _ Hc) in B3. cbn [andb] in B3. apply Z.ltb_ge in B3.
      pose proof (Z.mul_div_le (n * 1000) 32 ltac:(lia)). pose proof (Z.mod_pos_bound (n * 1000) 32 ltac:(lia)).
      pose proof (Z.div_mod (n * 1000) 32 ltac:(lia)). lia.
    + rewrite Hc in B2. cbn [andb Z.eqb Pos.eqb] in B2. apply Z.ltb_ge in B2.
      pose proof (Z.mod_pos_bound (n * 1000) 32 ltac:(lia)). pose proof (Z.div_mod (n * 1000) 32 ltac:(lia)). lia.
Qed.
Print Assumptions C85_partial.

Example C85_nonvacuous : exists v', check_apdu 32 8 ex_app ex_q ex_dev = Ok (v', Accepted ex_layouts) /\ In ex_in (q_crs ex_q) /\
  p_hold ex_in * p_rr ex_in * p_scf ex_in * 1000 < 4294967296 /\ p_class ex_in = 1.
Proof. eexists. split; [vm_compute; reflexivity|]. split; [now left|]. split; [cbn; lia|reflexivity]. Qed.
(** Sharp: 60 cycles of 32 ms are accepted, 61 are refused. *)
Definition hold_q (h : Z) : request := mkRequest ex_ar [ex_cr 1 1 40 49153 h (p_apis ex_in); ex_out] [mkXapi 0 ex_mods] [ex_alarm] None false.
Example C85_sharp : (exists v', check_apdu 32 8 ex_app (hold_q 60) ex_dev = Ok (v', Accepted ex_layouts)) /\
  check_apdu 32 8 ex_app (hold_q 61) ex_dev = Ok (ex_dev, Refused (Some (2, 16))).
Proof. split; [eexists|]; vm_compute; reflexivity. Qed.

(** The product is computed with 32 bits: 4195 cycles of 32 ms, more than two
    minutes, are accepted. *)
Theorem C85_refuted : ~ (forall mdi cap app q v v' ys p, wf q -> check_apdu mdi cap app q v = Ok (v', Accepted ys) -> In p (q_crs q) ->
  1 <= p_class p <= 3 -> p_hold p * (p_rr p * p_scf p) <= 61440).
Proof.
  intros H. assert (W : wf (hold_q 4195)) by (apply wf_in; [wfcr|reflexivity]).
  specialize (H 32 8%nat ex_app (hold_q 4195) ex_dev).
  destruct (check_apdu 32 8 ex_app (hold_q 4195) ex_dev) as [[v' vd]| |] eqn:E; vm_compute in E; try discriminate.
  inversion E; subst. specialize (H _ _ _ W eq_refl (or_introl eq_refl)). cbn in H. lia.
Qed.
Print Assumptions C85_refuted.
