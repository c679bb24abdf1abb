(** Theorems about connect requests: C86, C88, C89. *)
From Coq Require Import List ZArith Arith Bool Lia.
From Verif Require Import Base CpmModel BlockModel PpmModel ConnModel ConnSpec ConnLemmas ConnExp ConnLayout ConnProps ConnMoreProps.
Import ListNotations.
Local Open Scope Z_scope.

(** * Boolean checks *)

Ltac no_err H := repeat match type of H with
  | (if ?c then _ else _) = None => let E := fresh "E" in destruct c eqn:E; [discriminate H|] end.
Ltac simp_bool := repeat match goal with
  | E : (_ || _)%bool = false |- _ => apply orb_false_iff in E; destruct E
  | E : negb _ = false |- _ => apply negb_false_iff in E
  | E : (_ =? _) = true |- _ => apply Z.eqb_eq in E
  | E : (_ =? _) = false |- _ => apply Z.eqb_neq in E
  | E : (_ <? _) = false |- _ => apply Z.ltb_ge in E
  | E : (_ <=? _) = false |- _ => apply Z.leb_gt in E
  | E : outside _ _ _ = false |- _ => unfold outside in E
  end.

Lemma blist_eqb_iff : forall a b, blist_eqb a b = true <-> a = b.
Proof. intros. unfold blist_eqb. destruct (list_eq_dec Z.eq_dec a b); split; congruence. Qed.

Lemma land1 : forall z, Z.land z 1 = if Z.even z then 0 else 1.
Proof. intros z. change 1 with (Z.ones 1) at 1. rewrite Z.land_ones by lia. change (2 ^ 1) with 2. rewrite Zmod_even. reflexivity. Qed.

Lemma check_ar_iff : forall g, check_ar g = None <-> ar_ok g.
Proof.
  intros g. unfold check_ar, ar_ok, byte0. rewrite land1. split.
  - intros H. no_err H. simp_bool.
    match goal with E : check_zero _ = false |- _ => rename E into EZ end.
    match goal with E : check_object _ = true |- _ => rename E into EO; apply blist_eqb_iff in EO end.
    match goal with E : check_visible _ = true |- _ => rename E into EV end.
    split; [assumption|]. split.
    { unfold check_zero in EZ. clear -EZ. induction (g_uuid g) as [|b r IH]; [discriminate|]. cbn in EZ.
      destruct b as [|b|b]; [destruct (IH EZ) as (c & Hc & Hn); exists c; split; [now right|assumption]| |];
        eexists; (split; [left; reflexivity|discriminate]). }
    split; [destruct (Z.even (hd 0 (g_mac g))); [reflexivity|lia]|].
    split; [assumption|]. split; [assumption|]. split; [reflexivity|].
    split. { destruct (g_access g); [|reflexivity]. match goal with X : (true && _)%bool = false |- _ => cbn in X; apply negb_false_iff, Z.eqb_eq in X; lia end. }
    split; [assumption|]. split; [lia|]. split; [assumption|]. split; [lia|].
    unfold check_visible in EV. split; [now intros X; rewrite X in EV|]. intros c Hc.
    destruct (g_name g) as [|c0 r]; [discriminate|]. rewrite forallb_forall in EV. specialize (EV c Hc).
    apply andb_prop in EV. destruct EV as [V1 V2]. apply Z.leb_le in V1, V2. lia.
  - intros (H1 & (b & H2 & H2') & H3 & H4 & H5 & H6 & H7 & H8 & H9 & H10 & H11 & H12 & H13).
    rewrite H1, H3, H5, H6, H7. cbn [Z.eqb Pos.eqb negb andb].
    destruct (check_zero (g_uuid g)) eqn:EZ.
    { unfold check_zero in EZ. rewrite forallb_forall in EZ. specialize (EZ b H2). apply Z.eqb_eq in EZ. congruence. }
    rewrite (proj2 (blist_eqb_iff (firstn 10 (g_obj g)) _) H4) || (unfold check_object; rewrite (proj2 (blist_eqb_iff _ _) H4)). cbn [negb].
    destruct (Z.eqb_spec (g_companion g) 3); [congruence|].
    destruct (Z.ltb_spec (g_timeout g) 1); [lia|]. destruct (Z.ltb_spec 1000 (g_timeout g)); [lia|]. cbn [orb].
    destruct (Z.eqb_spec (g_namelen g) 0); [lia|]. change (241 - 1) with 240. destruct (Z.ltb_spec 240 (g_namelen g)); [lia|]. cbn [orb].
    assert (V : check_visible (g_name g) = true).
    { unfold check_visible. destruct (g_name g) as [|c0 r]; [congruence|]. apply forallb_forall. intros c Hc. destruct (H13 c Hc).
      apply andb_true_intro. split; now apply Z.leb_le. }
    now rewrite V.
Qed.

Lemma check_alarm_iff : forall g l, g_access g = false -> (check_alarm g l = None <-> alarm_ok l).
Proof.
  intros g l A. unfold check_alarm, alarm_ok. rewrite A. split.
  - intros H. no_err H. destruct (l_udp l); cbn [negb andb orb] in *; simp_bool; repeat split; try assumption; lia.
  - intros (-> & -> & H1 & H2 & H3 & -> & -> & -> & ->). unfold outside. destruct (l_udp l); cbn [negb andb orb Z.eqb Pos.eqb];
    (destruct (Z.ltb_spec (l_timeout l) 1); [lia|]); (destruct (Z.ltb_spec 100 (l_timeout l)); [lia|]);
    (destruct (Z.ltb_spec (l_retries l) 3); [lia|]); (destruct (Z.ltb_spec 15 (l_retries l)); [lia|]);
    (destruct (Z.ltb_spec (l_maxlen l) 200); [lia|]); (destruct (Z.ltb_spec 1432 (l_maxlen l)); [lia|]); reflexivity.
Qed.

Lemma eqb3 : forall c, 1 <= c -> c <= 3 -> ((c =? 1) || (c =? 2) || (c =? 3))%bool = true.
Proof. intros c H1 H2. destruct (Z.eqb_spec c 1); [reflexivity|]. destruct (Z.eqb_spec c 2); [reflexivity|]. destruct (Z.eqb_spec c 3); [reflexivity|lia]. Qed.

Lemma check_cr_none : forall mdi g p, check_cr mdi g p = None -> cr_ok g p.
Proof.
  intros mdi g p H. unfold check_cr, cr_ok in *. destruct (g_access g); [discriminate|]. no_err H.
  simp_bool.
  assert (MC : 3 <= p_type p -> ((p_type p =? 3) || (p_type p =? 4))%bool = true).
  { intros. destruct (Z.eqb_spec (p_type p) 3); [reflexivity|]. destruct (Z.eqb_spec (p_type p) 4); [reflexivity|lia]. }
  assert (CL : (if g_startup g then 2 else 1) <= p_class p <= 5).
  { match goal with X : (negb (g_startup g) && _)%bool = false, Y : (g_startup g && _)%bool = false |- _ =>
      destruct (g_startup g); cbn [negb andb] in X, Y; [clear X; rename Y into X|]; simp_bool; lia end. }
  split; [lia|].
  split. { match goal with X : (negb (p_class p =? 4) && _)%bool = false, Y : ((p_class p =? 4) && negb (p_lt p =? _))%bool = false |- _ =>
    destruct (p_class p =? 4); cbn [negb andb] in X, Y; [now apply negb_false_iff, Z.eqb_eq in Y|now apply negb_false_iff, Z.eqb_eq in X] end. }
  split; [assumption|]. split; [assumption|]. split; [assumption|].
  split. { intros C. match goal with X : ((p_class p =? 1) && outside 40 _ _)%bool = false |- _ => rewrite C in X; cbn [Z.eqb Pos.eqb andb] in X end. simp_bool. lia. }
  split. { intros C. match goal with X : ((p_class p =? 4) && outside 12 _ _)%bool = false |- _ => rewrite C in X; cbn [Z.eqb Pos.eqb andb] in X end. simp_bool. lia. }
  split. { intros T. match goal with X : ((p_type p =? 1) && _)%bool = false |- _ => rewrite T in X; cbn [Z.eqb Pos.eqb andb] in X end. simp_bool.
    unfold input_id. split; [intros [C|C]|split; intros C]; rewrite C in *; cbn [Z.eqb Pos.eqb andb] in *; simp_bool; lia. }
  split. { intros T. match goal with X : (_ && ((p_class p =? 1) && outside 63488 _ _ || _ || _ || _))%bool = false |- _ => rewrite (MC T) in X; cbn [andb] in X end. simp_bool.
    unfold multicast_id. split; [intros [C|C]|split; intros C]; rewrite C in *; cbn [Z.eqb Pos.eqb andb] in *; simp_bool; lia. }
  split. { match goal with X : existsb _ _ = true |- _ => apply existsb_exists in X; destruct X as (z & Hz & Ez); apply Z.eqb_eq in Ez; now subst z end. }
  split. { intros C. match goal with X : (_ && (outside 1 512 _ || _ || _ || _))%bool = false |- _ => rewrite eqb3 in X by (destruct (g_startup g); lia); cbn [andb] in X end. simp_bool.
    split; [lia|]. split; intros R.
    - match goal with X : ((256 <=? _) && _)%bool = false |- _ => rewrite (proj2 (Z.leb_le 256 _) R) in X; cbn [andb] in X end. simp_bool. lia.
    - match goal with X : ((p_rr p =? 512) && _)%bool = false |- _ => rewrite R in X; cbn [andb Z.eqb Pos.eqb] in X end. simp_bool. lia. }
  split. { intros C. match goal with X : (_ && (outside 1 16384 _ || _ || _))%bool = false |- _ => rewrite C in X; cbn [andb Z.eqb Pos.eqb] in X end. simp_bool.
    split; [lia|]. split; intros R.
    - match goal with X : ((8192 <=? _) && _)%bool = false |- _ => rewrite (proj2 (Z.leb_le 8192 _) R) in X; cbn [andb] in X end. simp_bool. lia.
    - match goal with X : ((p_rr p =? 16384) && _)%bool = false |- _ => rewrite R in X; cbn [andb Z.eqb Pos.eqb] in X end. simp_bool. lia. }
  split; [assumption|]. split; [assumption|].
  split. { match goal with X : (negb (p_fso p =? _) && _)%bool = false |- _ => destruct (Z.eqb_spec (p_fso p) 4294967295); [now left|]; cbn [negb andb] in X end. simp_bool. lia. }
  split; [lia|]. split; [assumption|]. split; [assumption|].
  split. { intros T. match goal with X : (_ && (Z.land _ _ =? 0))%bool = false |- _ => rewrite (MC T) in X; cbn [andb] in X; unfold byte0 in X; rewrite land1 in X end.
    rewrite <- Z.negb_even. destruct (Z.even (hd 0 (p_mac p))); [discriminate|reflexivity]. }
  split. { match goal with X : (length (p_apis p) =? 0)%nat = false |- _ => intros EA; rewrite EA in X; discriminate end. }
  intros C. rewrite C in *. cbn [andb Z.eqb Pos.eqb] in *. simp_bool. split; [|lia].
  match goal with X : check_zero _ = true |- _ => unfold check_zero in X; rewrite forallb_forall in X; intros b Hb; specialize (X b Hb) end. simp_bool. congruence.
Qed.

(** * C89 *)

(** An accepted request has an input and an output relation and exactly one alarm
    relation (and an IR block if a relation is of class 3), and all parameters are
    in their ranges. *)
Theorem C89_accepted : forall mdi cap app q v v' ys, check_apdu mdi cap app q v = Ok (v', Accepted ys) ->
  ar_ok (q_ar q) /\ (forall p, In p (q_crs q) -> cr_ok (q_ar q) p) /\
  (exists p, In p (q_crs q) /\ p_type p = 1) /\ (exists p, In p (q_crs q) /\ p_type p = 2) /\
  (exists l, q_alarms q = [l] /\ alarm_ok l) /\
  (forall p, In p (q_crs q) -> p_class p = 3 -> q_ir q = true) /\
  (forall port, q_rpc q = Some port -> 1024 <= port) /\ length ys = length (q_crs q).
Proof.
  intros mdi cap app q v v' ys H. apply check_apdu_accepted in H. destruct H as (H1 & H2 & _ & H4 & _ & H6 & H7 & H8).
  apply check_ar_iff in H1. assert (A : g_access (q_ar q) = false) by apply H1.
  split; [assumption|]. split; [intros p Hp; eapply check_cr_none; eauto|].
  unfold check_counts in H6. rewrite A in H6. cbn [negb andb] in H6.
  assert (CE : forall f, count f (q_crs q) <> 0%nat -> exists p, In p (q_crs q) /\ f p = true).
  { intros f. unfold count. destruct (filter f (q_crs q)) as [|p r] eqn:E; [cbn; congruence|]. intros _. exists p.
    apply filter_In. rewrite E. now left. }
  destruct (Nat.eqb_spec (count (fun p => p_type p =? 1) (q_crs q)) 0) as [E1|E1]; [discriminate|].
  destruct (Nat.eqb_spec (count (fun p => p_type p =? 2) (q_crs q)) 0) as [E2|E2]; [discriminate|]. cbn [orb] in H6.
  destruct (Nat.eqb_spec (length (q_alarms q)) 1) as [E3|E3]; [|discriminate]. cbn [negb] in H6.
  destruct (negb (q_ir q) && _) eqn:E4; [discriminate|].
  split. { destruct (CE _ E1) as (p & Hp & T). exists p. split; [assumption|]. now apply Z.eqb_eq. }
  split. { destruct (CE _ E2) as (p & Hp & T). exists p. split; [assumption|]. now apply Z.eqb_eq. }
  split. { destruct (q_alarms q) as [|l [|l2 r]]; try discriminate. exists l. split; [reflexivity|]. apply (check_alarm_iff (q_ar q) l A). now apply (H7 l []). }
  split. { intros p Hp C. destruct (q_ir q); [reflexivity|]. cbn [negb andb] in E4.
    assert (X : existsb (fun p => p_class p =? 3) (q_crs q) = true) by (apply existsb_exists; exists p; split; [assumption|now apply Z.eqb_eq]). congruence. }
  split. { intros port Hport. specialize (H8 port Hport). unfold check_rpc in H8. destruct (Z.ltb_spec port 1024); [discriminate|assumption]. }
  now apply setup_all_nth in H4.
Qed.
Print Assumptions C89_accepted.

(** Conversely, parameters of the AR and alarm blocks within their ranges are
    never the reason of a refusal. *)
Theorem C89_in_range : forall g l, ar_ok g -> alarm_ok l -> check_ar g = None /\ check_alarm g l = None.
Proof. intros g l H1 H2. split; [now apply check_ar_iff|]. apply check_alarm_iff; [apply H1|assumption]. Qed.
Print Assumptions C89_in_range.
Example C89_nonvacuous : ar_ok ex_ar /\ alarm_ok ex_alarm /\ cr_ok ex_ar ex_in /\ cr_ok ex_ar ex_out.
Proof.
  split; [now apply check_ar_iff|]. split; [now apply (check_alarm_iff ex_ar)|]. split; now apply (check_cr_none 32).
Qed.

(** * C86 *)

Lemma first_exp_sub : forall q v crs a s t x, NoDup (map xa_api (q_exp q)) -> (forall y, In y (q_exp q) -> api_ok v crs y) ->
  expected q a s t x -> get_exp_sub (q_exp q) a s t = Some x.
Proof.
  intros q v crs a s t x N O (xa & xm & H1 & H2 & H3 & H4 & H5 & H6). unfold get_exp_sub, get_exp_mod, get_exp_api.
  rewrite (find_unique _ xa_api a _ xa N H1 H2). destruct (O xa H1) as (N1 & O1). rewrite (find_unique _ xm_slot s _ xm N1 H3 H4).
  destruct (O1 xm H3) as (_ & _ & _ & _ & N2 & _). now rewrite (find_unique _ xs_subslot t _ x N2 H5 H6).
Qed.

Lemma setup_iocs_false : forall cap exp input L y b y' b',
  ofold (fun af y => setup_iocs1 cap exp input (fst af) (snd af) y) L (y, b) = Ok (y', b') -> b = true -> b' = false ->
  exists a f, In (a, f) L /\ get_exp_sub exp a (fd_slot f) (fd_subslot f) = None.
Proof.
  induction L as [|[a f] r IH]; intros y b y' b' H Hb Hb'; cbn [ofold] in H; [inversion H; congruence|]. cbn [fst snd] in H.
  unfold setup_iocs1 in H at 1. destruct (get_exp_sub exp a (fd_slot f) (fd_subslot f)) as [x|] eqn:G.
  2: { exists a, f. split; [now left|assumption]. }
  destruct (exp_desc x input false) as [d|].
  - destruct (put_desc _ _ _ _ _); cbn [obind] in H; try discriminate.
    destruct (IH _ _ _ _ H Hb Hb') as (a' & f' & H1 & H2). exists a', f'. split; [now right|assumption].
  - cbn [obind] in H. destruct (IH _ _ _ _ H Hb Hb') as (a' & f' & H1 & H2). exists a', f'. split; [now right|assumption].
Qed.

Lemma setup_all_none : forall cap exp crs, setup_all cap exp crs = Ok None ->
  exists p e f, In p crs /\ In e (p_apis p) /\ In f (ae_iocs e) /\ get_exp_sub exp (ae_api e) (fd_slot f) (fd_subslot f) = None.
Proof.
  induction crs as [|p r IH]; intros H; cbn in H; [discriminate|].
  destruct (setup_desc cap exp p) as [[y b]| |] eqn:E; try discriminate. cbn in H. destruct b.
  - destruct (setup_all cap exp r) as [[ys|]| |]; try discriminate. destruct (IH eq_refl) as (p' & e & f & H1 & H2). exists p', e, f.
    split; [now right|assumption].
  - unfold setup_desc in E. destruct (setup_data _ _ _ _ _) as [y0| |]; try discriminate. cbn [obind] in E. unfold setup_iocs in E.
    rewrite (ofold_flat _ (setup_iocs1 cap exp (is_input p)) ae_iocs) in E.
    destruct (setup_iocs_false _ _ _ _ _ _ _ _ E eq_refl eq_refl) as (a & f & H1 & H2).
    unfold flat in H1. apply in_flat_map in H1. destruct H1 as (e & He & H1). apply in_map_iff in H1. destruct H1 as (f' & EQ & Hf). inversion EQ; subst.
    exists p, e, f. split; [now left|]. auto.
Qed.

(** A refusal without error code happens only if a relation has an IOCS entry for
    a sub-slot that is not expected.  Missing: [C86_refuted]. *)
Theorem C86_partial : forall mdi cap app q v v', wf q -> only_plugs app -> room q v -> NoDup (map xa_api (q_exp q)) ->
  check_apdu mdi cap app q v = Ok (v', Refused None) ->
  exists p a s t off, In p (q_crs q) /\ iocs_entry p a s t off /\ ~ exists x, expected q a s t x.
Proof.
  intros mdi cap app q v v' (W1 & W2 & W3) A R N H. unfold check_apdu in H.
  destruct (check_ar (q_ar q)); [discriminate|]. destruct (check_crs _ _ _ _); [discriminate|].
  destruct (exp_configure app q v) as [v1 [e|]] eqn:EC; [discriminate|].
  assert (O : forall x, In x (q_exp q) -> api_ok v1 (q_crs q) x).
  { unfold exp_configure in EC. destruct (_ && _)%bool; [discriminate|].
    apply exp_apis_none in EC; [apply EC|assumption|intros; eapply W3; eauto|exact R]. }
  destruct (setup_all _ _ _) as [[ys'|]| |] eqn:ES; try discriminate; cbn in H.
  - destruct (check_apis _ _ _); [discriminate|]. destruct (check_counts q); [discriminate|].
    destruct (match rev _ with [] => _ | _ => _ end); [discriminate|].
    destruct (match q_rpc q with Some _ => _ | _ => _ end); discriminate.
  - destruct (setup_all_none _ _ _ ES) as (p & e & f & H1 & H2 & H3 & H4).
    exists p, (ae_api e), (fd_slot f), (fd_subslot f), (fd_offset f). split; [assumption|]. split; [exists e; destruct f; auto|].
    intros (x & X). rewrite (first_exp_sub _ _ _ _ _ _ _ N O X) in H4. discriminate.
Qed.
Print Assumptions C86_partial.

(** Such a request is refused without error code: the answer carries the code of
    success. *)
Definition ghost_in : crparam := ex_cr 1 1 40 49153 3 [mkApi 0 [mkFdesc 1 1 0; mkFdesc 1 3 3] [mkFdesc 1 2 5; mkFdesc 1 3 6; mkFdesc 1 4 8]].
Definition ghost_q : request := mkRequest ex_ar [ghost_in; ex_out] [mkXapi 0 ex_mods] [ex_alarm] None false.
Theorem C86_refuted : ~ (forall mdi cap app q v v' st, wf q -> only_plugs app -> room q v -> NoDup (map xa_api (q_exp q)) ->
  check_apdu mdi cap app q v = Ok (v', Refused st) -> st <> None).
Proof.
  intros H. assert (W : wf ghost_q) by (apply wf_in; [wfcr|reflexivity]).
  specialize (H 32 8%nat ex_app ghost_q ex_dev).
  destruct (check_apdu 32 8 ex_app ghost_q ex_dev) as [[v' vd]| |] eqn:E; vm_compute in E; try discriminate.
  inversion E; subst. refine (H _ _ W ex_app_plugs _ _ eq_refl eq_refl).
  - unfold room. cbn. lia.
  - cbn. constructor; [intros []|constructor].
Qed.
Print Assumptions C86_refuted.

(** The first number of the code names the block that is at fault. *)
Definition codes (cs : list Z) (c : chk) : Prop := match c with Some (c1, _) => In c1 cs | None => True end.

Ltac code := repeat match goal with |- codes _ (if ?c then _ else _) => destruct c end; cbn; auto 10.

Lemma codes_cr : forall mdi g p, g_access g = false -> codes [2; 1] (check_cr mdi g p) /\
  (forall n, check_cr mdi g p = Some (1, n) -> p_class p = 4).
Proof.
  intros mdi g p A. unfold check_cr. rewrite A. split; [code|].
  intros n H. repeat match type of H with (if ?c then _ else _) = _ => let E := fresh "E" in destruct c eqn:E; try discriminate H end;
    match goal with X : ((p_class p =? 4) && _)%bool = true |- _ => apply andb_prop in X; destruct X as [X _]; now apply Z.eqb_eq end.
Qed.

Lemma codes_crs : forall mdi g l e, g_access g = false -> codes [2; 1] e -> codes [2; 1] (check_crs mdi g l e).
Proof.
  induction l as [|p r IH]; intros e A H; cbn; [assumption|]. apply IH; [assumption|].
  pose proof (proj1 (codes_cr mdi g p A)) as C. unfold later. destruct (check_cr mdi g p); assumption.
Qed.

Lemma crs_one : forall mdi g l e n, g_access g = false -> check_crs mdi g l e = Some (1, n) ->
  e = Some (1, n) \/ exists p, In p l /\ check_cr mdi g p <> None /\ p_class p = 4.
Proof.
  induction l as [|p r IH]; intros e n A H; cbn in H; [now left|].
  destruct (IH _ _ A H) as [E|(p' & H1 & H2)]; [|right; exists p'; split; [now right|assumption]].
  unfold later in E. destruct (check_cr mdi g p) as [x|] eqn:Ep; [|now left]. inversion E; subst.
  right. exists p. split; [now left|]. split; [congruence|]. eapply codes_cr; eassumption.
Qed.

Lemma codes_subs : forall app crs a s mid l before v e, codes [3] e -> codes [3] (snd (exp_subs app crs a s mid before l v e)).
Proof.
  induction l as [|x r IH]; intros before v e H; cbn [exp_subs]; [exact H|]. apply IH.
  set (v1 := if has_sub v a s (xs_subslot x) then v else _). clearbody v1.
  assert (S : codes [3] (check_sub v1 a s x)).
  { unfold check_sub. repeat match goal with |- codes _ (if ?c then _ else _) => destruct c end; try (cbn; now left).
    assert (F : forall l e, codes [3] e -> codes [3] (fold_left (fun e d => later e (check_ddesc (xs_type x) d)) l e)).
    { clear. induction l as [|d r IH]; intros e H; cbn; [assumption|]. apply IH. unfold later.
      assert (codes [3] (check_ddesc (xs_type x) d)) by (unfold check_ddesc; code). destruct (check_ddesc _ d); assumption. }
    apply F. exact Logic.I. }
  set (e1 := if passed e && _ then e_exp 10 else e). assert (H1 : codes [3] e1) by (unfold e1; destruct (passed e && _); [cbn; now left|assumption]). clearbody e1.
  set (e2 := if passed e1 && _ then e_exp 10 else e1). assert (H2 : codes [3] e2) by (unfold e2; destruct (passed e1 && _); [cbn; now left|assumption]). clearbody e2.
  destruct (passed e2); assumption.
Qed.

Lemma codes_mods : forall app crs a l before v e, codes [3] e -> codes [3] (snd (exp_mods app crs a before l v e)).
Proof.
  induction l as [|m r IH]; intros before v e H; cbn [exp_mods]; [exact H|]. destruct e as [e|]; [now apply IH|].
  set (v1 := if has_slot v a (xm_slot m) then v else _). clearbody v1.
  match goal with |- codes _ (snd (let '(_, _) := ?X in _)) => assert (G : codes [3] (snd X)); [|destruct X as [v2 e2]; apply IH; exact G] end.
  destruct (Nat.eqb _ 0); [|cbn; now left].
  repeat match goal with |- codes _ (snd (if ?c then _ else _)) => destruct c end; try (cbn; now left). apply codes_subs. exact Logic.I.
Qed.

Lemma codes_apis : forall app crs l v e, codes [3] e -> codes [3] (snd (exp_apis app crs l v e)).
Proof.
  induction l as [|x r IH]; intros v e H; cbn [exp_apis]; [exact H|]. destruct e as [e|]; [now apply IH|].
  destruct (if has_api v (xa_api x) then Some v else new_api v (xa_api x)) as [v1|]; [|now apply IH].
  pose proof (codes_mods app crs (xa_api x) (xa_mods x) [] v1 None Logic.I) as M.
  destruct (exp_mods _ _ _ _ _ _ _) as [v2 e2]. apply IH. exact M.
Qed.

Lemma codes_fold : forall A (f : chk -> A -> chk) cs, (forall e a, codes cs e -> codes cs (f e a)) ->
  forall l e, codes cs e -> codes cs (fold_left f l e).
Proof. intros A f cs H. induction l as [|a r IH]; intros e He; cbn; auto. Qed.

Lemma codes_check_apis : forall exp l e, codes [2] e -> codes [2] (check_apis exp l e).
Proof.
  induction l as [|[p y] r IH]; intros e H; cbn [check_apis]; [exact H|]. apply IH.
  assert (D : forall l before e, codes [2] e -> codes [2] (check_descs (p_sdu p) before l e)).
  { clear. induction l as [|[k o] r IH]; intros before e H; cbn [check_descs]; [exact H|]. apply IH. destruct e; [exact H|].
    unfold check_overlap. code. }
  apply D. apply codes_fold; [|exact H]. clear. intros e a H. unfold check_entry.
  destruct (get_exp_api _ _) as [x|]; [|cbn; now left].
  set (e1 := if _ && _ then e_iocr 21 else e). assert (H1 : codes [2] e1) by (unfold e1; destruct (_ && _); [cbn; now left|assumption]). clearbody e1.
  destruct e1; [assumption|].
  assert (U : forall n l0 l e, codes [2] e -> codes [2] (fold_left (fun e f => if (count (at_slot (fd_slot f) (fd_subslot f)) l0 =? 1)%nat then e else e_iocr n) l e)).
  { intros n l0. apply codes_fold. intros e0 f H0. destruct (_ =? 1)%nat; [assumption|]. cbn. now left. }
  set (e3 := fold_left (check_data1 x (p_type p)) _ _).
  assert (H3 : codes [2] e3).
  { apply codes_fold; [|apply U; exact Logic.I]. intros e0 f H0. unfold check_data1. destruct (last_mod _ _); [|cbn; now left].
    destruct (last_sub _ _); [|cbn; now left]. destruct e0; [assumption|]. code. }
  clearbody e3. set (e4 := if passed e3 then _ else e3). assert (H4 : codes [2] e4) by (unfold e4; destruct (passed e3); [now apply U|assumption]). clearbody e4.
  destruct (passed e4); [|assumption]. apply codes_fold; [|assumption]. intros e0 f H0. unfold check_iocs1.
  destruct (last_mod _ _); [|cbn; now left]. destruct (last_sub _ _); [|cbn; now left]. destruct e0; [assumption|]. code.
Qed.

(** What the first number of a code says: 1 the AR block (or the UDP parameters
    of a relation), 2 a relation, 3 the expected submodules, 4 the alarm relation,
    7 the RPC server block, 64 the number of blocks. *)
Theorem C86_names : forall mdi cap app q v v' c1 c2, check_apdu mdi cap app q v = Ok (v', Refused (Some (c1, c2))) ->
  In c1 [1; 2; 3; 4; 7; 64] /\
  (c1 = 1 -> ~ ar_ok (q_ar q) \/ exists p, In p (q_crs q) /\ p_class p = 4 /\ check_cr mdi (q_ar q) p <> None) /\
  (c1 = 4 -> exists l, In l (q_alarms q) /\ ~ alarm_ok l) /\
  (c1 = 7 -> exists port, q_rpc q = Some port /\ port < 1024) /\
  (c1 = 64 -> (forall p, In p (q_crs q) -> p_type p <> 1) \/ (forall p, In p (q_crs q) -> p_type p <> 2) \/ length (q_alarms q) <> 1%nat \/
     (q_ir q = false /\ exists p, In p (q_crs q) /\ p_class p = 3)).
Proof.
  intros mdi cap app q v v' c1 c2 H. unfold check_apdu in H.
  destruct (check_ar (q_ar q)) as [e|] eqn:EA.
  { inversion H; subst. assert (C : codes [1] (check_ar (q_ar q))) by (unfold check_ar; code). rewrite EA in C. cbn in C. destruct C as [<-|[]].
    split; [cbn; auto|]. split; [intros _; left; intros O; apply check_ar_iff in O; congruence|]. repeat split; intros X; discriminate. }
  assert (A : g_access (q_ar q) = false) by (apply check_ar_iff in EA; apply EA).
  destruct (check_crs _ _ _ _) as [e|] eqn:EC.
  { inversion H; subst. pose proof (codes_crs mdi (q_ar q) (q_crs q) None A Logic.I) as C. rewrite EC in C. cbn in C.
    split; [cbn; tauto|]. split.
    - intros ->. right. destruct (crs_one _ _ _ _ _ A EC) as [X|(p & P1 & P2 & P3)]; [discriminate|]. exists p. auto.
    - destruct C as [<-|[<-|[]]]; repeat split; intros X; discriminate. }
  destruct (exp_configure app q v) as [v1 [e|]] eqn:EX.
  { inversion H; subst. assert (C : codes [3] (snd (exp_configure app q v))).
    { unfold exp_configure. destruct (_ && _)%bool; [cbn; now left|]. apply codes_apis. exact Logic.I. }
    rewrite EX in C. cbn in C. destruct C as [<-|[]]. split; [cbn; auto|]. repeat split; intros X; discriminate. }
  destruct (setup_all _ _ _) as [[ys|]| |]; try discriminate. cbn in H.
  destruct (check_apis _ _ _) as [e|] eqn:EP.
  { inversion H; subst. pose proof (codes_check_apis (q_exp q) (combine (q_crs q) ys) None Logic.I) as C. rewrite EP in C. cbn in C.
    destruct C as [<-|[]]. split; [cbn; auto|]. repeat split; intros X; discriminate. }
  destruct (check_counts q) as [e|] eqn:EN.
  { inversion H; subst. clear H. unfold check_counts in EN. rewrite A in EN. cbn [negb andb] in EN.
    assert (Z0 : forall f, Nat.eqb (count f (q_crs q)) 0 = true -> forall p, In p (q_crs q) -> f p = false).
    { intros f Hf. apply Nat.eqb_eq in Hf. now apply count_zero. }
    assert (G : c1 = 64 /\ ((forall p, In p (q_crs q) -> p_type p <> 1) \/ (forall p, In p (q_crs q) -> p_type p <> 2) \/ length (q_alarms q) <> 1%nat \/
     (q_ir q = false /\ exists p, In p (q_crs q) /\ p_class p = 3))).
    { destruct (Nat.eqb (count (fun p => p_type p =? 1) (q_crs q)) 0) eqn:E1; cbn [orb] in EN.
      { inversion EN. split; [reflexivity|]. left. intros p Hp. apply Z.eqb_neq. exact (Z0 _ E1 p Hp). }
      destruct (Nat.eqb (count (fun p => p_type p =? 2) (q_crs q)) 0) eqn:E2.
      { inversion EN. split; [reflexivity|]. right; left. intros p Hp. apply Z.eqb_neq. exact (Z0 _ E2 p Hp). }
      destruct (Nat.eqb_spec (length (q_alarms q)) 1) as [E3|E3]; cbn [negb] in EN.
      - destruct (q_ir q); cbn [negb andb] in EN; [discriminate|]. destruct (existsb _ _) eqn:E4 in EN; [|discriminate].
        inversion EN. split; [reflexivity|]. right; right; right. split; [reflexivity|]. apply existsb_exists in E4. destruct E4 as (p & P1 & P2).
        exists p. split; [assumption|]. now apply Z.eqb_eq.
      - inversion EN. auto. }
    destruct G as [-> G]. split; [cbn; auto 10|]. repeat split; try (intros X; discriminate X). intros _. exact G. }
  destruct (rev (q_alarms q)) as [|l r] eqn:ER.
  - destruct (q_rpc q) as [port|] eqn:EQ; [|discriminate]. unfold check_rpc in H. destruct (Z.ltb_spec port 1024); [|discriminate].
    inversion H; subst. split; [cbn; auto 10|]. repeat split; try (intros X; discriminate X). eauto.
  - destruct (check_alarm (q_ar q) l) as [e|] eqn:EL.
    { inversion H; subst. assert (C : codes [4] (check_alarm (q_ar q) l)) by (unfold check_alarm; rewrite A; code). rewrite EL in C. cbn in C.
      destruct C as [<-|[]]. split; [cbn; auto|]. repeat split; try (intros X; discriminate X). intros _. exists l.
      split; [apply in_rev; rewrite ER; now left|]. intros O. apply (check_alarm_iff (q_ar q)) in O; [congruence|assumption]. }
    destruct (q_rpc q) as [port|] eqn:EQ; [|discriminate]. unfold check_rpc in H. destruct (Z.ltb_spec port 1024); [|discriminate].
    inversion H; subst. split; [cbn; auto 10|]. repeat split; try (intros X; discriminate X). eauto.
Qed.
Print Assumptions C86_names.
Example C86_nonvacuous : check_apdu 32 8 ex_app (mkRequest ex_ar [ex_in; ex_out] [mkXapi 0 ex_mods] [mkAlarmcr 1 false 34962 1 2 200 0 6 0 5] None false) ex_dev
  = Ok (mkDev [(0, [(1, [3; 2; 1])])] 1, Refused (Some (4, 8))).
Proof. vm_compute. reflexivity. Qed.

(** * C88 *)

Lemma free_id_iff : forall used f, free_id used f = true <-> ~ In f used.
Proof.
  intros used f. unfold free_id. rewrite negb_true_iff. split.
  - intros H Hin. assert (X : existsb (Z.eqb f) used = true) by (apply existsb_exists; exists f; split; [assumption|apply Z.eqb_refl]). congruence.
  - intros H. destruct (existsb (Z.eqb f) used) eqn:E; [|reflexivity]. apply existsb_exists in E. destruct E as (g & Hg & E). apply Z.eqb_eq in E. subst. tauto.
Qed.

Lemma search_spec : forall n used stop f, 0 <= f <= stop + 1 -> stop < 65535 -> stop + 1 - f <= Z.of_nat n ->
  exists r, search_id n used stop f = Some r /\ f <= r <= stop + 1 /\ (r <= stop -> ~ In r used) /\ forall b, f <= b < r -> In b used.
Proof.
  induction n as [|n IH]; intros used stop f H1 H2 H3; cbn [search_id].
  - assert (f = stop + 1) by lia. destruct (Z.leb_spec f stop); [lia|]. cbn. exists f. repeat split; try lia. 
  - destruct (Z.leb_spec f stop).
    + cbn [andb]. destruct (free_id used f) eqn:E; cbn [negb].
      * exists f. split; [reflexivity|]. split; [lia|]. split; [intros _; now apply free_id_iff|]. intros b; lia.
      * rewrite u16_id by lia. destruct (IH used stop (f + 1)) as (r & R1 & R2 & R3 & R4); [lia|lia|lia|].
        exists r. split; [exact R1|]. split; [lia|]. split; [exact R3|]. intros b Hb. destruct (Z.eq_dec b f) as [->|]; [|apply R4; lia].
        destruct (in_dec Z.eq_dec f used) as [Hi|Hi]; [assumption|]. apply free_id_iff in Hi. congruence.
    + cbn [andb]. exists f. split; [reflexivity|]. split; [lia|]. split; [lia|]. intros b; lia.
Qed.

Lemma search_finds : forall used start stop, 0 <= start <= stop -> stop < 65535 -> Z.of_nat (length used) < stop - start + 1 ->
  exists r, search_id (Z.to_nat 65536) used stop start = Some r /\ start <= r <= stop /\ ~ In r used.
Proof.
  intros used start stop H1 H2 H3. destruct (search_spec (Z.to_nat 65536) used stop start) as (r & R1 & R2 & R3 & R4); [lia|lia|lia|].
  exists r. split; [exact R1|]. assert (R5 : r <= stop).
  { destruct (Z_le_gt_dec r stop); [assumption|]. exfalso.
    assert (L : (length (bytes (start, r - start)%Z) <= length used)%nat).
    { apply NoDup_incl_length; [apply bytes_nodup|]. intros b Hb. apply in_bytes in Hb. unfold covers in Hb. cbn in Hb. apply R4. lia. }
    pose proof (bytes_length (start, r - start) ltac:(cbn; lia)) as E. cbn [snd] in E. lia. }
  split; [lia|]. now apply R3.
Qed.

(** The controller leaves the choice of the frame id to the device. *)
Definition open_id (p : crparam) : Prop := p_type p = 2 /\ p_fid p = 65535.
Definition with_fid (p : crparam) (f : Z) : crparam :=
  mkCrparam (p_type p) (p_lt p) (p_class p) (p_res1 p) (p_res3 p) (p_sdu p) f (p_scf p) (p_rr p)
    (p_phase p) (p_fso p) (p_hold p) (p_vlan p) (p_prio p) (p_mac p) (p_apis p).
(** Frame ids of unicast relations, by class. *)
Definition class_id (class f : Z) : Prop :=
  (class = 1 /\ 49152 <= f <= 63487) \/ (class = 2 /\ 32768 <= f <= 48127) \/ (class = 3 /\ 256 <= f <= 32767) \/ (class = 4 /\ 49152 <= f <= 63487).

Lemma fix_ids_spec : forall others l before,
  (forall p, In p l -> open_id p -> 1 <= p_class p <= 4) ->
  Z.of_nat (length others + length before + length l) < 14336 ->
  exists l', fix_ids others before l = Some (before ++ l') /\ length l' = length l /\
    forall l1 p' l2, l' = l1 ++ p' :: l2 -> exists p, nth_error l (length l1) = Some p /\
      (~ open_id p -> p' = p) /\
      (open_id p -> p' = with_fid p (p_fid p') /\ class_id (p_class p) (p_fid p') /\
         ~ In (p_fid p') others /\ ~ In (p_fid p') (map p_fid before) /\ ~ In (p_fid p') (map p_fid (l1 ++ l2))).
Proof.
  induction l as [|p r IH]; intros before HC HL.
  - exists []. cbn. rewrite app_nil_r. split; [reflexivity|]. split; [reflexivity|]. intros [|? ?] p' l2 E; discriminate.
  - assert (STEP : exists p', (exists l', fix_ids others before (p :: r) = fix_ids others (before ++ [p']) r /\ l' = r) /\
      (~ open_id p -> p' = p) /\ (open_id p -> p' = with_fid p (p_fid p') /\ class_id (p_class p) (p_fid p') /\
        ~ In (p_fid p') (others ++ map p_fid before ++ map p_fid (p :: r)))).
    { cbn [fix_ids]. destruct ((p_type p =? 2) && (p_fid p =? 65535)) eqn:E.
      - apply andb_prop in E. destruct E as [E1 E2]. apply Z.eqb_eq in E1, E2. assert (OP : open_id p) by (split; assumption).
        specialize (HC p (or_introl eq_refl) OP).
        set (used := others ++ map p_fid before ++ map p_fid (p :: r)).
        assert (LU : Z.of_nat (length used) < 14336) by (unfold used; rewrite !app_length, !map_length; cbn [length] in *; lia).
        clearbody used.
        assert (RG : exists start stop, id_range (p_class p) = (start, stop) /\ 0 <= start <= stop /\ stop < 65535 /\ 14336 <= stop - start + 1 /\
          forall f, start <= f <= stop -> class_id (p_class p) f).
        { assert (CC : p_class p = 1 \/ p_class p = 2 \/ p_class p = 3 \/ p_class p = 4) by lia. unfold id_range, class_id.
          destruct CC as [C|[C|[C|C]]]; rewrite C; cbn; do 2 eexists; (split; [reflexivity|]); (split; [lia|]); (split; [lia|]); (split; [lia|]); intros f Hf; auto 10. }
        destruct RG as (start & stop & -> & G1 & G2 & G3 & G4).
        destruct (search_finds used start stop G1 G2 ltac:(lia)) as (f & -> & F1 & F2).
        destruct (Z.leb_spec f stop); [|lia]. exists (with_fid p f). split; [exists r; split; reflexivity|]. split; [tauto|].
        intros _. cbn [p_fid with_fid]. split; [reflexivity|]. split; [now apply G4|assumption].
      - exists p. split; [exists r; split; reflexivity|]. split; [reflexivity|]. intros [O1 O2]. rewrite O1, O2 in E. discriminate. }
    destruct STEP as (p' & (_ & -> & _) & P1 & P2).
    destruct (IH (before ++ [p'])) as (l' & F & L & G); [intros; apply HC; [now right|assumption]|rewrite app_length; cbn [length] in *; lia|].
    exists (p' :: l'). rewrite F, <- app_assoc. split; [reflexivity|]. split; [cbn; lia|].
    assert (TAIL : forall q', In q' l' -> open_id p -> p_fid q' <> p_fid p').
    { intros q' Hq OP Heq. apply in_split in Hq. destruct Hq as (m1 & m2 & E). destruct (G m1 q' m2 E) as (q & Q1 & Q2 & Q3).
      destruct (P2 OP) as (_ & _ & NI). apply NI.
      assert (D : open_id q \/ ~ open_id q) by (unfold open_id; lia). destruct D as [D|D].
      - destruct (Q3 D) as (_ & _ & _ & Q4 & _). exfalso. apply Q4. rewrite map_app. apply in_or_app. right. left. congruence.
      - rewrite (Q2 D) in Heq. apply in_or_app. right. apply in_or_app. right. cbn. right. rewrite <- Heq. apply in_map. now apply nth_error_In in Q1. }
    intros [|h l1] q' l2 E; cbn in E; inversion E; subst.
    + exists p. cbn. split; [reflexivity|]. split; [assumption|]. intros OP. destruct (P2 OP) as (A1 & A2 & A3).
      split; [assumption|]. split; [assumption|]. split; [intros X; apply A3; apply in_or_app; now left|].
      split; [intros X; apply A3; apply in_or_app; right; apply in_or_app; now left|].
      intros X. apply in_map_iff in X. destruct X as (z & Z1 & Z2). exact (TAIL z Z2 OP Z1).
    + destruct (G l1 q' l2 eq_refl) as (q & Q1 & Q2 & Q3). exists q. cbn. split; [assumption|]. split; [assumption|].
      intros OP. destruct (Q3 OP) as (A1 & A2 & A3 & A4 & A5). do 3 (split; [assumption|]). rewrite map_app in A4.
      split; [intros X; apply A4; apply in_or_app; now left|].
      intros [X|X]; [|tauto]. apply A4. apply in_or_app. right. left. exact X.
Qed.

(** Relations of the classes 1-4, and fewer than 14336 relations in total: the
    search ends; each relation left open gets an id of its class that no other
    relation of this or another connection has; the others are unchanged.
    Missing: class 5 ([C88_refuted]), and ids given by the controller
    ([C88_given_refuted]). *)
Theorem C88_partial : forall others l, (forall p, In p l -> open_id p -> 1 <= p_class p <= 4) ->
  Z.of_nat (length others + length l) < 14336 ->
  exists l', fix_ids others [] l = Some l' /\ length l' = length l /\
    forall l1 p' l2, l' = l1 ++ p' :: l2 -> exists p, nth_error l (length l1) = Some p /\
      (~ open_id p -> p' = p) /\
      (open_id p -> p' = with_fid p (p_fid p') /\ class_id (p_class p) (p_fid p') /\
         ~ In (p_fid p') others /\ ~ In (p_fid p') (map p_fid (l1 ++ l2))).
Proof.
  intros others l H1 H2. destruct (fix_ids_spec others l [] H1) as (l' & F & L & G); [cbn [length]; lia|].
  exists l'. split; [exact F|]. split; [exact L|]. intros l1 p' l2 E. destruct (G l1 p' l2 E) as (p & P1 & P2 & P3). exists p.
  split; [assumption|]. split; [assumption|]. intros O. destruct (P3 O) as (A & B & C & _ & D). auto.
Qed.
Print Assumptions C88_partial.

Example C88_nonvacuous : open_id ex_out /\ fix_ids [49152; 49154] [] [ex_in; ex_out; ex_out] = Some [ex_in; with_fid ex_out 49155; with_fid ex_out 49156].
Proof. split; [split; reflexivity|]. vm_compute. reflexivity. Qed.

(** A relation of class 5 gets the frame id 0. *)
Theorem C88_refuted : ~ (forall others l l' p p', fix_ids others [] l = Some l' -> nth_error l 0 = Some p -> nth_error l' 0 = Some p' ->
  open_id p -> 256 <= p_fid p').
Proof.
  intros H. specialize (H [] [ex_cr 2 5 40 65535 3 []] [ex_cr 2 5 40 0 3 []] _ _ eq_refl eq_refl eq_refl (conj eq_refl eq_refl)). cbn in H. lia.
Qed.
Print Assumptions C88_refuted.

(** An id chosen by the controller for an output relation is not checked: a
    request is accepted with an id that another connection uses already. *)
Definition given_out : crparam := with_fid ex_out 49153.
Definition given_q : request := mkRequest ex_ar [ex_in; given_out] [mkXapi 0 ex_mods] [ex_alarm] None false.
Theorem C88_given_refuted : exists v' ys l', check_apdu 32 8 ex_app given_q ex_dev = Ok (v', Accepted ys) /\
  fix_ids [49153] [] (q_crs given_q) = Some l' /\ In 49153 (map p_fid (filter (fun p => p_type p =? 2) l')).
Proof. do 3 eexists. split; [vm_compute; reflexivity|]. split; [vm_compute; reflexivity|]. now left. Qed.
Print Assumptions C88_given_refuted.
