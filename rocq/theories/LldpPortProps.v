(** Neighbours of a port: a refused frame changes nothing (C99), neighbours expire
    (C102), alias names (C103), LLDP is sent (C104), topology errors are reported
    (C105), reads of port data end (C106). *)
From Coq Require Import List ZArith Arith Bool Lia.
From Verif Require Import Base SchedModel SchedProofs CpmModel PpmModel BlockModel BlockWriteProps LldpModel LldpProps PortModel LldpPortModel.
Import ListNotations.
Local Open Scope Z_scope.

(** A received frame says [p] about the neighbour. *)
Definition says (ds : Z) (buf : list Z) (p : peer) : Prop :=
  parse ds ([0; 0; 0], 0) buf (Z.of_nat (length buf)) = Ok (Some p).

(** The cycle time of pnet_handle_periodic(), in microseconds. *)
Definition cyc_ok (cyc : Z) : Prop := 0 < cyc <= 2000000000.

Lemma wait_le : forall cyc d, cyc_ok cyc -> 0 <= d <= 100000000 -> wait cyc d <= d + cyc.
Proof.
  intros cyc d C D. unfold wait. destruct (sanitize_ok d cyc true ltac:(lia) C) as (k & K1 & K2 & K3 & K4 & _). rewrite K2.
  unfold max_delay in *. assert (H2 : 0 <= cyc / 2) by (apply Z.div_pos; unfold cyc_ok in C; lia). unfold cyc_ok in C.
  destruct (Z.le_gt_cases d (cyc + cyc / 2)) as [G|G].
  - rewrite K4 by lia. lia.
  - rewrite K3 by lia. pose proof (Z.mul_div_le (d + cyc / 2) cyc ltac:(lia)). nia.
Qed.

Lemma run_snoc : forall ds cyc l x s, run ds cyc (l ++ [x]) s = step ds cyc (run ds cyc l s) x.
Proof. intros. unfold run. rewrite fold_left_app. reflexivity. Qed.

(** * C99: a refused frame *)

Theorem C99_refused : forall ds cyc s t buf room,
  (forall p, ~ says ds buf p) -> step ds cyc s (t, Frame buf room) = s.
Proof.
  intros ds cyc s t buf room H. cbn [step]. unfold recv. destruct (parse ds _ buf _) as [[p|]| |] eqn:E; try reflexivity.
  exfalso. exact (H p E).
Qed.
Print Assumptions C99_refused.

(** * C102: neighbours expire *)

(** ** Specification *)

(** The link as the monitor saw it last (down after a start). *)
Definition link_of (l : list (Z * event)) : bool :=
  fold_left (fun b x => match snd x with Monitor r => r | Restart => false | _ => b end) l false.

(** Something about a neighbour is reported: pf_lldp_get_peer_timestamp and the
    functions for the single values succeed. *)
Definition reported (s : port) : Prop :=
  o_recv s = true \/ i_valid (p_cid (o_info s)) = true \/ i_valid (p_pid (o_info s)) = true \/
  d_valid (p_desc (o_info s)) = true \/ g_valid (p_mgmt (o_info s)) = true \/
  y_valid (p_delay (o_info s)) = true \/ k_valid (p_phy (o_info s)) = true.

(** The neighbour said [p] in a frame; since then the device was not restarted, the
    link did not go down, and the stack was not called later than the time to live
    (plus one cycle) after the frame. *)
Definition heard (ds cyc : Z) (l : list (Z * event)) (p : peer) : Prop :=
  exists a t buf room b, l = a ++ (t, Frame buf room) :: b /\ says ds buf p /\
    (forall t', ~ In (t', Restart) b) /\
    (forall b1 t' b2, b = b1 ++ (t', Monitor false) :: b2 -> link_of (a ++ (t, Frame buf room) :: b1) = false) /\
    (0 <= p_ttl p <= 60 -> forall t', In (t', Handle) b -> t' < t + p_ttl p * 1000000 + cyc).

(** The scheduler has a free entry when a frame is received. *)
Definition roomy (l : list (Z * event)) : Prop := forall t buf room, In (t, Frame buf room) l -> room = true.

(** ** Proof *)

Definition flags (p : peer) : bool :=
  i_valid (p_cid p) || i_valid (p_pid p) || d_valid (p_desc p) || g_valid (p_mgmt p) || y_valid (p_delay p) || k_valid (p_phy p).

Lemma flags_invalid : forall p, flags (invalid p) = false.
Proof. intros p. reflexivity. Qed.

Definition inv102 (ds cyc : Z) (l : list (Z * event)) (s : port) : Prop :=
  o_up s = link_of l /\ (o_recv s = false -> flags (o_info s) = false) /\
  (o_recv s = true -> exists a t buf room b, l = a ++ (t, Frame buf room) :: b /\ says ds buf (o_info s) /\
    (forall t', ~ In (t', Restart) b) /\
    (forall b1 t' b2, b = b1 ++ (t', Monitor false) :: b2 -> link_of (a ++ (t, Frame buf room) :: b1) = false) /\
    (0 <= p_ttl (o_info s) <= 60 ->
      o_rx s = Some (t + wait cyc (p_ttl (o_info s) * 1000000)) /\
      forall t', In (t', Handle) b -> t' < t + wait cyc (p_ttl (o_info s) * 1000000))).

(** Events that change neither the neighbour nor its timer. *)
Lemma inv102_keep : forall ds cyc l s s' x, inv102 ds cyc l s ->
  o_recv s' = o_recv s -> o_info s' = o_info s -> o_rx s' = o_rx s -> o_up s' = link_of (l ++ [x]) ->
  snd x <> Restart -> (snd x = Monitor false -> link_of l = false) ->
  (snd x = Handle -> forall d, o_rx s = Some d -> fst x < d) -> inv102 ds cyc (l ++ [x]) s'.
Proof.
  intros ds cyc l s s' x (U & F & H) Er Ei Ex Eu NR NM NH. split; [exact Eu|]. rewrite Er, Ei. split; [exact F|].
  intros R. destruct (H R) as (a & t & buf & room & b & -> & S & B & M & T). exists a, t, buf, room, (b ++ [x]).
  split; [rewrite <- app_assoc; reflexivity|]. split; [exact S|]. split; [|split].
  - intros t' I. apply in_app_iff in I. destruct I as [I|[I|[]]]; [exact (B _ I)|]. subst x. apply NR. reflexivity.
  - intros b1 t' b2 E. destruct b2 as [|y b2] using rev_ind.
    + apply app_inj_tail in E. destruct E as [-> ->]. apply NM. reflexivity.
    + change (b1 ++ (t', Monitor false) :: b2 ++ [y]) with (b1 ++ ((t', Monitor false) :: b2) ++ [y]) in E.
      rewrite app_assoc in E. apply app_inj_tail in E. destruct E as [-> _]. apply (M b1 t' b2). reflexivity.
  - intros L. destruct (T L) as [T1 T2]. rewrite Ex. split; [exact T1|]. intros t' I. apply in_app_iff in I.
    destruct I as [I|[I|[]]]; [exact (T2 _ I)|]. subst x. apply (NH eq_refl _ T1).
Qed.

Lemma link_snoc : forall l x, link_of (l ++ [x]) = match snd x with Monitor r => r | Restart => false | _ => link_of l end.
Proof. intros. unfold link_of. rewrite fold_left_app. reflexivity. Qed.

Lemma start_room : forall cyc t d old, start cyc t d true old = Some (t + wait cyc d).
Proof. intros. destruct old; reflexivity. Qed.

(** [run_check] changes only the diagnoses. *)
Lemma run_check_keep : forall s, let s' := run_check s in
  o_recv s' = o_recv s /\ o_info s' = o_info s /\ o_rx s' = o_rx s /\ o_tx s' = o_tx s /\ o_up s' = o_up s /\
  o_upd s' = o_upd s /\ o_chk s' = o_chk s /\ o_adj s' = o_adj s /\ o_file s' = o_file s /\ o_sent s' = o_sent s.
Proof.
  intros s. unfold run_check. destruct (o_chk s) as [w|] eqn:E; [|cbv zeta; auto 20].
  cbv zeta. unfold check_station, check_port, check_nopeer. cbn [set_diag o_info].
  destruct (i_valid (p_pid (o_info s))); cbn [set_diag o_info];
    destruct (Z.of_nat (length (peer_station (o_info s))) =? 0); cbn [set_diag]; cbn; rewrite ?E; auto 20.
Qed.

Lemma boot_fields : forall ds cyc t f sent, let s := boot ds cyc t f sent in
  o_recv s = false /\ o_info s = peer0 ds /\ o_up s = false /\ o_upd s = false /\
  o_chk s = match f with Some (c, _) => c | None => None end /\ o_adj s = match f with Some (_, a) => a | None => None end /\
  o_rx s = match f with Some (Some _, _) => Some (t + wait cyc 0) | _ => None end /\
  o_file s = match f with Some f => Some f | None => Some (None, None) end /\
  (o_tx s = match f with Some (_, Some true) => None | _ => Some (t + wait cyc 5000000) end) /\
  (o_sent s = match f with Some (_, Some true) => sent | _ => t :: sent end).
Proof. intros ds cyc t [[[w|] [[|]|]]|] sent; cbn; auto 20. Qed.

(** What one call of pnet_handle_periodic() does to neighbour and timers. *)
Lemma handle_fields : forall cyc t s, let s' := handle cyc t s in
  o_up s' = o_up s /\ o_chk s' = o_chk s /\ o_adj s' = o_adj s /\ o_file s' = o_file s /\ o_upd s' = false /\
  (if due t (o_rx s) then o_recv s' = false /\ o_info s' = invalid (o_info s) /\ o_rx s' = None
   else o_recv s' = o_recv s /\ o_info s' = o_info s /\ o_rx s' = o_rx s) /\
  (if due t (o_tx s) then o_tx s' = Some (t + wait cyc 5000000) /\ o_sent s' = t :: o_sent s
   else o_tx s' = o_tx s /\ o_sent s' = o_sent s).
Proof.
  intros cyc t s. cbv zeta. unfold handle.
  set (s1 := if due t (o_rx s) then rx_expired s else s).
  assert (E1 : o_up s1 = o_up s /\ o_chk s1 = o_chk s /\ o_adj s1 = o_adj s /\ o_file s1 = o_file s /\ o_tx s1 = o_tx s /\ o_sent s1 = o_sent s /\
    (if due t (o_rx s) then o_recv s1 = false /\ o_info s1 = invalid (o_info s) /\ o_rx s1 = None
     else o_recv s1 = o_recv s /\ o_info s1 = o_info s /\ o_rx s1 = o_rx s)).
  { unfold s1. destruct (due t (o_rx s)); cbn; auto 20. }
  clearbody s1. cbv zeta. set (s2 := if due t (o_tx s1) then _ else s1).
  assert (E2 : o_up s2 = o_up s1 /\ o_chk s2 = o_chk s1 /\ o_adj s2 = o_adj s1 /\ o_file s2 = o_file s1 /\ o_recv s2 = o_recv s1 /\
    o_info s2 = o_info s1 /\ o_rx s2 = o_rx s1 /\
    (if due t (o_tx s1) then o_tx s2 = Some (t + wait cyc 5000000) /\ o_sent s2 = t :: o_sent s1
     else o_tx s2 = o_tx s1 /\ o_sent s2 = o_sent s1)).
  { unfold s2. destruct (due t (o_tx s1)); cbn; auto 20. }
  clearbody s2.
  destruct E1 as (E11 & E12 & E13 & E14 & E15 & E16 & E17). rewrite E11, E12, E13, E14, E15, E16 in E2.
  destruct E2 as (E21 & E22 & E23 & E24 & E25 & E26 & E27 & E28). rewrite <- E25, <- E26, <- E27 in E17.
  destruct (o_upd s2) eqn:U.
  - destruct (run_check_keep (set_upd s2 false)) as (R1 & R2 & R3 & R4 & R5 & R6 & R7 & R8 & R9 & R10).
    cbn [set_upd o_recv o_info o_rx o_tx o_up o_upd o_chk o_adj o_file o_sent] in R1, R2, R3, R4, R5, R6, R7, R8, R9, R10.
    rewrite R1, R2, R3, R4, R5, R6, R7, R8, R9, R10. auto 20.
  - auto 20.
Qed.

Lemma inv102_step : forall ds cyc l s x, roomy (l ++ [x]) -> inv102 ds cyc l s -> inv102 ds cyc (l ++ [x]) (step ds cyc s x).
Proof.
  intros ds cyc l s [t e] RM I. assert (U : o_up s = link_of l) by apply I.
  assert (K : forall s', o_recv s' = o_recv s -> o_info s' = o_info s -> o_rx s' = o_rx s -> o_up s' = o_up s ->
    e <> Restart -> (forall r, e <> Monitor r) -> e <> Handle -> inv102 ds cyc (l ++ [(t, e)]) s').
  { intros s' A B C D E1 E2 E3. apply (inv102_keep ds cyc l s s' (t, e) I A B C); cbn [snd fst].
    - rewrite D, U, link_snoc. cbn [snd]. destruct e; try reflexivity; [exfalso; apply (E2 running); reflexivity|contradiction].
    - exact E1.
    - intros E. exfalso. exact (E2 _ E).
    - intros E. contradiction. }
  destruct e as [buf room| |r|w|off room| |room|room| |]; cbn [step].
  - (* Frame *)
    unfold recv. destruct (parse ds _ buf _) as [[p|]| |] eqn:P; try (apply K; auto; discriminate).
    assert (RR : room = true) by (apply (RM t buf room); apply in_app_iff; right; left; reflexivity). subst room.
    unfold update_peer. cbv zeta. set (s1 := restart_rx cyc t true (p_ttl p) s).
    assert (S1 : o_recv s1 = o_recv s /\ o_info s1 = o_info s /\ o_up s1 = o_up s /\
      (0 <= p_ttl p <= 60 -> o_rx s1 = Some (t + wait cyc (p_ttl p * 1000000)))).
    { unfold s1, restart_rx. destruct (Z.ltb_spec 60 (p_ttl p)); cbn; repeat split; try lia. intros _. apply start_room. }
    clearbody s1. destruct S1 as (S1 & S2 & S3 & S4).
    assert (N : forall s', o_recv s' = true -> o_info s' = p -> o_rx s' = o_rx s1 -> o_up s' = o_up s -> inv102 ds cyc (l ++ [(t, Frame buf true)]) s').
    { intros s' A B C D. split; [rewrite D, U, link_snoc; reflexivity|]. split; [rewrite A; discriminate|]. intros _.
      exists l, t, buf, true, []. split; [reflexivity|]. rewrite B. split; [exact P|]. split; [intros t' []|]. split.
      - intros b1 t' b2 E. destruct b1; discriminate E.
      - intros L. split; [rewrite C; exact (S4 L)|intros t' []]. }
    destruct (peer_eq_dec p (o_info s1)) as [->|NE].
    + destruct (o_recv s) eqn:R.
      * apply N; congruence.
      * split; [rewrite S3, U, link_snoc; reflexivity|]. rewrite S1, S2. destruct I as (_ & F & _). split; [auto|discriminate].
    + apply N; try reflexivity. exact S3.
  - (* Handle *)
    destruct (handle_fields cyc t s) as (H1 & _ & _ & _ & _ & H6 & _). destruct (due t (o_rx s)) eqn:D.
    + destruct H6 as (R & E & _). split; [rewrite H1, U, link_snoc; reflexivity|]. rewrite R, E. split; [intros _; apply flags_invalid|discriminate].
    + destruct H6 as (R & E & X). apply (inv102_keep ds cyc l s _ (t, Handle) I R E X); cbn [snd fst]; try discriminate.
      * rewrite H1, U, link_snoc. reflexivity.
      * intros _ d Hd. rewrite Hd in D. cbn [due] in D. apply Z.leb_gt in D. exact D.
  - (* Monitor *)
    unfold monitor. cbv zeta. destruct (o_up s && negb r) eqn:D.
    + split; [cbn; rewrite link_snoc; reflexivity|]. cbn [set_up set_upd invalidate set_peer set_rx o_recv o_info]. split; [intros _; apply flags_invalid|discriminate].
    + apply (inv102_keep ds cyc l s _ (t, Monitor r) I); cbn; try reflexivity; try discriminate.
      * rewrite link_snoc. reflexivity.
      * intros E. injection E as ->. rewrite <- U. destruct (o_up s); [discriminate D|reflexivity].
  - unfold write_check. destruct (run_check_keep (set_chk s (Some w))) as (R1 & R2 & R3 & _ & R5 & _). apply K; try discriminate; assumption.
  - unfold write_adjust. cbv zeta. destruct off; apply K; try discriminate; reflexivity.
  - apply K; try discriminate; reflexivity.
  - apply K; try discriminate; reflexivity.
  - unfold restart_tx. destruct (o_adj s) as [[|]|]; apply K; try discriminate; reflexivity.
  - apply K; try discriminate; reflexivity.
  - destruct (boot_fields ds cyc t (o_file s) (o_sent s)) as (B1 & B2 & B3 & _). split; [rewrite B3, link_snoc; reflexivity|].
    rewrite B1, B2. split; [intros _; reflexivity|discriminate].
Qed.

Lemma inv102_run : forall ds cyc t0 l, roomy l -> inv102 ds cyc l (run ds cyc l (boot ds cyc t0 None [])).
Proof.
  intros ds cyc t0 l. induction l as [|x l IH] using rev_ind; intros R.
  - split; [reflexivity|]. split; [intros _; reflexivity|discriminate].
  - rewrite run_snoc. apply inv102_step; [exact R|]. apply IH. intros t buf room I. apply (R t buf room). apply in_app_iff. left. exact I.
Qed.

(** Whatever is reported was said by the neighbour within its time to live, if that
    is at most 60 seconds.  Missing: longer times to live, see below. *)
Theorem C102_expires_partial : forall ds cyc t0 l, cyc_ok cyc -> roomy l ->
  let s := run ds cyc l (boot ds cyc t0 None []) in
  reported s -> heard ds cyc l (o_info s).
Proof.
  intros ds cyc t0 l C R s H. destruct (inv102_run ds cyc t0 l R) as (_ & F & I). fold s in F, I.
  assert (E : o_recv s = true).
  { destruct (o_recv s) eqn:E; [reflexivity|]. specialize (F eq_refl). unfold flags in F. unfold reported in H. rewrite E in H.
    repeat (apply orb_false_iff in F; destruct F as [F ?]). destruct H as [H|[H|[H|[H|[H|[H|H]]]]]]; congruence. }
  destruct (I E) as (a & t & buf & room & b & L & S & B & M & T). exists a, t, buf, room, b.
  split; [exact L|]. split; [exact S|]. split; [exact B|]. split; [exact M|]. intros L6 t' I'. destruct (T L6) as [_ T2].
  pose proof (T2 t' I'). pose proof (wait_le cyc (p_ttl (o_info s) * 1000000) C ltac:(lia)). lia.
Qed.
Print Assumptions C102_expires_partial.

(** Conversely, a frame which says something is reported at once. *)
Theorem C102_known : forall ds cyc t0 l t buf room p, roomy l -> says ds buf p -> flags p = true ->
  let s := run ds cyc (l ++ [(t, Frame buf room)]) (boot ds cyc t0 None []) in
  o_recv s = true /\ o_info s = p.
Proof.
  intros ds cyc t0 l t buf room p R S F. cbv zeta. rewrite run_snoc. destruct (inv102_run ds cyc t0 l R) as (_ & I & _).
  set (s := run ds cyc l (boot ds cyc t0 None [])) in *. clearbody s. cbn [step]. unfold recv. unfold says in S. rewrite S.
  unfold update_peer. cbv zeta. set (s1 := restart_rx cyc t room (p_ttl p) s).
  assert (S1 : o_recv s1 = o_recv s /\ o_info s1 = o_info s) by (unfold s1, restart_rx; destruct (60 <? p_ttl p); split; reflexivity).
  clearbody s1. destruct S1 as [S1 S2]. destruct (peer_eq_dec p (o_info s1)) as [E|NE]; [|split; reflexivity].
  split; [|congruence]. rewrite S1. destruct (o_recv s) eqn:G; [reflexivity|]. specialize (I eq_refl). congruence.
Qed.
Print Assumptions C102_known.

(** A frame of "port-001.a", with the given time to live. *)
Definition a_frame (ttl : Z) : list Z :=
  concat (map eencode [EChassis 7 [97]; EPort 7 [112; 111; 114; 116; 45; 48; 48; 49; 46; 97]; ETtl ttl]) ++ e16 true 0.
Definition a_peer (ttl : Z) : peer :=
  match parse 60 ([0; 0; 0], 0) (a_frame ttl) (Z.of_nat (length (a_frame ttl))) with Ok (Some p) => p | _ => peer0 60 end.
Lemma a_says : says 60 (a_frame 20) (a_peer 20) /\ says 60 (a_frame 100) (a_peer 100) /\
  flags (a_peer 20) = true /\ flags (a_peer 100) = true /\ p_ttl (a_peer 20) = 20 /\ p_ttl (a_peer 100) = 100.
Proof. unfold says. vm_compute. auto 10. Qed.

(** The neighbour is known after 19 seconds, not after 21. *)
Example C102_example :
  let l := [(0, Monitor true); (0, Frame (a_frame 20) true); (19000000, Handle)] in
  let s := run 60 1000 l (boot 60 1000 0 None []) in
  roomy l /\ reported s /\ ~ reported (run 60 1000 (l ++ [(21000000, Handle)]) (boot 60 1000 0 None [])).
Proof.
  cbv zeta. split; [|split].
  - intros t buf room [E|[E|[E|[]]]]; inversion E; reflexivity.
  - left. vm_compute. reflexivity.
  - unfold reported. vm_compute. intros [H|[H|[H|[H|[H|[H|H]]]]]]; discriminate H.
Qed.

(** A neighbour with a time to live of more than 60 seconds never expires. *)
Theorem C102_long_refuted : forall T, 
  let l := [(0, Frame (a_frame 100) true); (T, Handle)] in
  let s := run 60 1000 l (boot 60 1000 0 None []) in
  roomy l /\ reported s /\ p_ttl (o_info s) = 100.
Proof.
  intros T l s. split; [|].
  - intros t buf room [E|[E|[]]]; inversion E; reflexivity.
  - assert (E : o_recv s = true /\ o_info s = a_peer 100).
    { unfold s, l. change [(0, Frame (a_frame 100) true); (T, Handle)] with ([(0, Frame (a_frame 100) true)] ++ [(T, Handle)]). rewrite run_snoc.
      destruct (C102_known 60 1000 0 [] 0 (a_frame 100) true (a_peer 100)) as [K1 K2]; try apply a_says; [intros t buf room []|].
      cbn [app] in K1, K2.
      assert (X : o_rx (run 60 1000 [(0, Frame (a_frame 100) true)] (boot 60 1000 0 None [])) = None) by (vm_compute; reflexivity).
      set (s0 := run 60 1000 [(0, Frame (a_frame 100) true)] (boot 60 1000 0 None [])) in *. clearbody s0. cbn [step].
      destruct (handle_fields 1000 T s0) as (_ & _ & _ & _ & _ & H & _). rewrite X in H. cbn [due] in H. destruct H as (-> & -> & _). split; assumption. }
    destruct E as [E1 E2]. split; [left; exact E1|]. rewrite E2. apply a_says.
Qed.
Print Assumptions C102_long_refuted.

(** Nor does a neighbour whose frame arrives when the scheduler is full. *)
Theorem C102_full_refuted : forall T,
  let s := run 60 1000 [(0, Frame (a_frame 20) false); (T, Handle)] (boot 60 1000 0 None []) in
  reported s /\ p_ttl (o_info s) = 20.
Proof.
  intros T s. assert (E : o_recv s = true /\ o_info s = a_peer 20).
  { unfold s. change [(0, Frame (a_frame 20) false); (T, Handle)] with ([(0, Frame (a_frame 20) false)] ++ [(T, Handle)]). rewrite run_snoc.
    destruct (C102_known 60 1000 0 [] 0 (a_frame 20) false (a_peer 20)) as [K1 K2]; try apply a_says; [intros t buf room []|].
    cbn [app] in K1, K2.
    assert (X : o_rx (run 60 1000 [(0, Frame (a_frame 20) false)] (boot 60 1000 0 None [])) = None) by (vm_compute; reflexivity).
    set (s0 := run 60 1000 [(0, Frame (a_frame 20) false)] (boot 60 1000 0 None [])) in *. clearbody s0. cbn [step].
    destruct (handle_fields 1000 T s0) as (_ & _ & _ & _ & _ & H & _). rewrite X in H. cbn [due] in H. destruct H as (-> & -> & _). split; assumption. }
  destruct E as [E1 E2]. split; [left; exact E1|]. rewrite E2. apply a_says.
Qed.
Print Assumptions C102_full_refuted.

(** * C103: alias names *)

(** ** Specification *)

(** The text of an id. *)
Definition text (c : lid) : list Z := cstr (i_str c).
(** The alias which a neighbour gives to this device. *)
Definition alias_of (p : peer) : list Z :=
  if existsb (Z.eqb 46) (text (p_pid p)) then text (p_pid p) else text (p_pid p) ++ [46] ++ text (p_cid p).

(** ** Proof *)

Lemma after_dot_spec : forall l, (exists r, after_dot l = Some r) <-> existsb (Z.eqb 46) l = true.
Proof.
  induction l as [|x l IH]; cbn [after_dot existsb].
  - split; [intros [r H]; discriminate H|discriminate].
  - rewrite (Z.eqb_sym 46 x). destruct (x =? 46); cbn [orb]; [split; intros; [reflexivity|eexists; reflexivity]|exact IH].
Qed.

(** Forming an alias never writes outside its buffer. *)
Theorem C103_buffer : forall size port chassis, exists a, alias_name size port chassis = Ok a /\
  match a with Some n => Z.of_nat (length n) < size | None => True end.
Proof.
  intros size port chassis. unfold alias_name, store. destruct (after_dot port).
  - destruct (Z.leb_spec size (Z.of_nat (length port))); [exists None; split; [reflexivity|exact I]|].
    destruct (Z.ltb_spec (Z.of_nat (length port)) size); [|lia]. eexists. split; [reflexivity|cbv beta iota; assumption].
  - destruct (Z.leb_spec size (Z.of_nat (length port) + Z.of_nat (length chassis) + 1)); [exists None; split; [reflexivity|exact I]|]. cbv zeta.
    destruct (Z.leb_spec size (Z.of_nat (length (port ++ [46] ++ chassis)))); [exists None; split; [reflexivity|exact I]|].
    destruct (Z.ltb_spec (Z.of_nat (length (port ++ [46] ++ chassis))) size); [|lia]. eexists. split; [reflexivity|cbv beta iota; assumption].
Qed.
Print Assumptions C103_buffer.

Lemma alias_name_spec : forall p n, (Z.of_nat (length n) <= 255) ->
  (alias_name 256 (text (p_pid p)) (text (p_cid p)) = Ok (Some n) <-> n = alias_of p).
Proof.
  intros p n L. unfold alias_name, store, alias_of. pose proof (after_dot_spec (text (p_pid p))) as D.
  destruct (existsb (Z.eqb 46) (text (p_pid p))).
  - destruct (proj2 D eq_refl) as [r ->]. destruct (Z.leb_spec 256 (Z.of_nat (length (text (p_pid p))))).
    + split; [discriminate|]. intros ->. lia.
    + destruct (Z.ltb_spec (Z.of_nat (length (text (p_pid p)))) 256); [|lia]. split; [intros E; injection E; auto|intros ->; reflexivity].
  - destruct (after_dot (text (p_pid p))) as [r|]; [discriminate (proj1 D (ex_intro _ r eq_refl))|].
    set (q := text (p_pid p) ++ [46] ++ text (p_cid p)).
    assert (Lq : Z.of_nat (length q) = Z.of_nat (length (text (p_pid p))) + Z.of_nat (length (text (p_cid p))) + 1)
      by (unfold q; rewrite !app_length; cbn [length]; lia).
    rewrite <- Lq. cbv zeta. destruct (Z.leb_spec 256 (Z.of_nat (length q))).
    + split; [discriminate|]. intros ->. lia.
    + destruct (Z.ltb_spec (Z.of_nat (length q)) 256); [|lia]. split; [intros E; injection E; auto|intros ->; reflexivity].
Qed.

(** Identify by alias matches exactly the aliases given by present neighbours. *)
Theorem C103_alias : forall ports alias, Z.of_nat (length alias) <= 255 ->
  exists b, alias_matching ports alias = Ok b /\
    (b = true <-> exists s, In s ports /\ o_recv s = true /\ alias = alias_of (o_info s)).
Proof.
  intros ports alias L. induction ports as [|s r IH]; cbn [alias_matching].
  - exists false. split; [reflexivity|]. split; [discriminate|]. intros (s & [] & _).
  - destruct IH as (b & IH & IB). destruct (o_recv s) eqn:R.
    + fold (text (p_pid (o_info s))) (text (p_cid (o_info s))).
      destruct (C103_buffer 256 (text (p_pid (o_info s))) (text (p_cid (o_info s)))) as (a & E & _). rewrite E. cbn beta iota delta [obind].
      assert (X : a = Some alias <-> alias = alias_of (o_info s)).
      { rewrite <- alias_name_spec by exact L. rewrite E. split; [intros ->; reflexivity|intros H; injection H; auto]. }
      assert (Y : forall b', (b' = true <-> (alias = alias_of (o_info s) \/ exists s0, In s0 r /\ o_recv s0 = true /\ alias = alias_of (o_info s0))) ->
        (b' = true <-> exists s0, In s0 (s :: r) /\ o_recv s0 = true /\ alias = alias_of (o_info s0))).
      { intros b' ->. split.
        - intros [H|(s0 & H1 & H2)]; [exists s; split; [left; reflexivity|auto]|exists s0; split; [right; exact H1|exact H2]].
        - intros (s0 & [<-|H1] & H2 & H3); [left; exact H3|right; exists s0; auto]. }
      destruct a as [n|].
      * destruct (list_eq_dec Z.eq_dec alias n) as [->|NE].
        -- exists true. split; [reflexivity|]. apply Y. split; [|reflexivity]. intros _. left. apply X. reflexivity.
        -- exists b. split; [exact IH|]. apply Y. rewrite IB. split; [intros H; right; exact H|].
           intros [H|H]; [|exact H]. apply X in H. congruence.
      * exists b. split; [exact IH|]. apply Y. rewrite IB. split; [intros H; right; exact H|].
        intros [H|H]; [|exact H]. apply X in H. discriminate H.
    + exists b. split; [exact IH|]. rewrite IB. split.
      * intros (s0 & H1 & H2). exists s0. split; [right; exact H1|exact H2].
      * intros (s0 & [<-|H1] & H2 & H3); [congruence|exists s0; auto].
Qed.
Print Assumptions C103_alias.

(** The text of an id is what the neighbour sent (see C100), if that contains no
    zero byte. *)
Theorem C103_text : forall size c k s, id_view c = Some (k, s) -> id_term size c -> size = Z.of_nat (length (i_str c)) ->
  ~ In 0 s -> text c = s.
Proof.
  intros size c k s V T Sz N. unfold id_view in V. destruct (i_valid c) eqn:E; [|discriminate V]. injection V as _ V.
  destruct (T E) as [L Z0]. unfold text. rewrite <- V in N |- *. rewrite Sz in L.
  assert (Ln : (Z.to_nat (i_len c) < length (i_str c))%nat) by lia. clear - Ln Z0 N.
  revert Ln Z0 N. generalize (Z.to_nat (i_len c)) as n. induction (i_str c) as [|x l IH]; intros n Ln Z0 N; [cbn [length] in Ln; lia|].
  destruct n as [|n]; cbn [nth firstn] in *.
  - cbn [cstr]. rewrite Z0. reflexivity.
  - cbn [cstr]. destruct (Z.eqb_spec x 0) as [->|NX]; [exfalso; apply N; left; reflexivity|]. f_equal. apply IH; [cbn [length] in Ln; lia|exact Z0|].
    intros H. apply N. right. exact H.
Qed.
Print Assumptions C103_text.

(** "port-001.a" matches while the neighbour is known, "port-001.b" does not. *)
Example C103_example :
  let s := run 60 1000 [(0, Frame (a_frame 20) true)] (boot 60 1000 0 None []) in
  alias_matching [boot 60 1000 0 None []; s] [112; 111; 114; 116; 45; 48; 48; 49; 46; 97] = Ok true /\
  alias_matching [boot 60 1000 0 None []; s] [112; 111; 114; 116; 45; 48; 48; 49; 46; 98] = Ok false.
Proof. vm_compute. auto. Qed.

(** A neighbour which sent neither id gives the alias ".". *)
Theorem C103_empty_refuted :
  let s := run 60 1000 [(0, Frame (eencode (ETtl 20) ++ e16 true 0) true)] (boot 60 1000 0 None []) in
  i_valid (p_pid (o_info s)) = false /\ alias_matching [s] [46] = Ok true.
Proof. vm_compute. auto. Qed.
Print Assumptions C103_empty_refuted.

(** * C104: sending *)

(** ** Specification *)

(** Whether sending is switched off by the controller: by the last write of adjust
    data; a reset, or a controller that wants to connect, forgets it; a restart goes
    back to what was saved.  The second component is what was saved. *)
Definition adjusted (l : list (Z * event)) : bool * bool :=
  fold_left (fun c x => match snd x with
    | WriteAdjust off _ => (off, snd c)
    | Reset | Connect _ => (false, snd c)
    | Save => (fst c, fst c)
    | Restart => (snd c, snd c)
    | _ => c
    end) l (false, false).
Definition switched_off (l : list (Z * event)) : bool := fst (adjusted l).

(** ** Proof *)

Definition is_off (a : option bool) : bool := match a with Some true => true | _ => false end.
Definition inv104 (l : list (Z * event)) (s : port) : Prop :=
  is_off (o_adj s) = switched_off l /\
  (exists c a, o_file s = Some (c, a) /\ is_off a = snd (adjusted l)) /\
  (is_off (o_adj s) = true -> o_tx s = None).

Lemma adjusted_snoc : forall l x, adjusted (l ++ [x]) = match snd x with
    | WriteAdjust off _ => (off, snd (adjusted l))
    | Reset | Connect _ => (false, snd (adjusted l))
    | Save => (fst (adjusted l), fst (adjusted l))
    | Restart => (snd (adjusted l), snd (adjusted l))
    | _ => adjusted l
    end.
Proof. intros. unfold adjusted. rewrite fold_left_app. reflexivity. Qed.

(** Frames, link changes and wanted neighbours do not touch sending. *)
Lemma recv_tx : forall ds cyc t room buf s, let s' := recv ds cyc t room buf s in
  o_tx s' = o_tx s /\ o_sent s' = o_sent s /\ o_adj s' = o_adj s /\ o_file s' = o_file s.
Proof.
  intros ds cyc t room buf s. cbv zeta. unfold recv. destruct (parse ds _ buf _) as [[p|]| |]; auto.
  unfold update_peer, restart_rx. cbv zeta. destruct (60 <? p_ttl p); destruct (peer_eq_dec _ _); cbn; auto.
Qed.
Lemma monitor_tx : forall r s, let s' := monitor r s in
  o_tx s' = o_tx s /\ o_sent s' = o_sent s /\ o_adj s' = o_adj s /\ o_file s' = o_file s.
Proof. intros r s. cbv zeta. unfold monitor. cbv zeta. destruct (o_up s && negb r); cbn; auto. Qed.

(** What one event does to sending. *)
Lemma step_tx : forall ds cyc s t e, let s' := step ds cyc s (t, e) in
  (o_tx s' = o_tx s /\ o_sent s' = o_sent s \/ o_tx s' = None /\ o_sent s' = o_sent s \/
   o_sent s' = t :: o_sent s /\ (o_tx s' = Some (t + wait cyc 5000000) \/ o_tx s' = None)).
Proof.
  intros ds cyc s t e. cbv zeta. destruct e as [buf room| |r|w|off room| |room|room| |]; cbn [step].
  - destruct (recv_tx ds cyc t room buf s) as (A & B & _). auto.
  - destruct (handle_fields cyc t s) as (_ & _ & _ & _ & _ & _ & H). destruct (due t (o_tx s)); [|auto]. destruct H. auto.
  - destruct (monitor_tx r s) as (A & B & _). auto.
  - unfold write_check. destruct (run_check_keep (set_chk s (Some w))) as (_ & _ & _ & A & _ & _ & _ & _ & _ & B). rewrite A, B. auto.
  - unfold write_adjust. cbv zeta. destruct off; cbn; auto. right. right. split; [reflexivity|]. unfold start. destruct (o_tx s); [auto|]. destruct room; auto.
  - auto.
  - auto.
  - unfold restart_tx. destruct (o_adj s) as [[|]|]; cbn; auto; right; right; (split; [reflexivity|]); unfold start; destruct (o_tx s); auto; destruct room; auto.
  - auto.
  - destruct (boot_fields ds cyc t (o_file s) (o_sent s)) as (_ & _ & _ & _ & _ & _ & _ & _ & A & B). rewrite A, B.
    destruct (o_file s) as [[c [[|]|]]|]; auto.
Qed.

Lemma inv104_step : forall ds cyc l s x, inv104 l s -> inv104 (l ++ [x]) (step ds cyc s x).
Proof.
  intros ds cyc l s [t e] (A & (c & a & F & G) & O).
  assert (K : forall s', o_adj s' = o_adj s -> o_file s' = o_file s -> (is_off (o_adj s) = true -> o_tx s' = None) ->
    adjusted (l ++ [(t, e)]) = adjusted l -> inv104 (l ++ [(t, e)]) s').
  { intros s' E1 E2 E3 E4. unfold inv104, switched_off. rewrite E1, E4. split; [exact A|]. split; [exists c, a; rewrite E2; auto|exact E3]. }
  unfold switched_off in A. destruct e as [buf room| |r|w|off room| |room|room| |]; cbn [step].
  - destruct (recv_tx ds cyc t room buf s) as (T & _ & E1 & E2). apply K; try assumption; [rewrite T; exact O|apply adjusted_snoc].
  - destruct (handle_fields cyc t s) as (_ & _ & E1 & E2 & _ & _ & H). apply K; try assumption; [|apply adjusted_snoc].
    intros Z0. specialize (O Z0). rewrite O in H. cbn [due] in H. destruct H as [-> _]. reflexivity.
  - destruct (monitor_tx r s) as (T & _ & E1 & E2). apply K; try assumption; [rewrite T; exact O|apply adjusted_snoc].
  - unfold write_check. destruct (run_check_keep (set_chk s (Some w))) as (_ & _ & _ & T & _ & _ & _ & E1 & E2 & _).
    apply K; [exact E1|exact E2|rewrite T; exact O|apply adjusted_snoc].
  - unfold inv104, switched_off. rewrite adjusted_snoc. cbn [snd fst]. unfold write_adjust. cbv zeta.
    destruct off; cbn; (split; [reflexivity|split; [exists c, a; auto|]]); auto; discriminate.
  - unfold inv104, switched_off. rewrite adjusted_snoc. cbn. split; [reflexivity|]. split; [exists c, a; auto|discriminate].
  - unfold inv104, switched_off. rewrite adjusted_snoc. cbn. split; [reflexivity|]. split; [exists c, a; auto|discriminate].
  - unfold restart_tx. destruct (o_adj s) as [[|]|] eqn:E; apply K; cbn; try rewrite E; try reflexivity; try discriminate; try (apply adjusted_snoc).
  - unfold inv104, switched_off. rewrite adjusted_snoc. cbn. split; [exact A|]. split; [exists (o_chk s), (o_adj s); auto|exact O].
  - unfold inv104, switched_off. rewrite adjusted_snoc. cbn [snd fst].
    destruct (boot_fields ds cyc t (o_file s) (o_sent s)) as (_ & _ & _ & _ & _ & B1 & _ & B2 & B3 & _). rewrite B1, B2, B3, F.
    split; [exact G|]. split; [exists c, a; auto|]. destruct a as [[|]|]; cbn; auto; discriminate.
Qed.

Lemma inv104_run : forall ds cyc t0 l, inv104 l (run ds cyc l (boot ds cyc t0 None [])).
Proof.
  intros ds cyc t0 l. induction l as [|x l IH] using rev_ind.
  - split; [reflexivity|]. split; [exists None, None; split; reflexivity|discriminate].
  - rewrite run_snoc. apply inv104_step. exact IH.
Qed.

(** While the controller has switched sending off, nothing is sent. *)
Theorem C104_silent : forall ds cyc t0 l x,
  switched_off (l ++ [x]) = true ->
  let s := run ds cyc l (boot ds cyc t0 None []) in
  o_sent (step ds cyc s x) = o_sent s.
Proof.
  intros ds cyc t0 l x W s. pose proof (inv104_run ds cyc t0 l) as (A & (c & a & F & G) & O). fold s in A, F, O.
  pose proof (inv104_run ds cyc t0 (l ++ [x])) as (A' & _ & O'). rewrite run_snoc in A', O'. fold s in A', O'. rewrite W in A'.
  specialize (O' A'). clearbody s. destruct x as [t e]. unfold switched_off in A. unfold switched_off in W. rewrite adjusted_snoc in W. cbn [snd] in W.
  destruct e as [buf room| |r|w|off room| |room|room| |]; cbn [step] in *; try discriminate W.
  - apply recv_tx.
  - destruct (handle_fields cyc t s) as (_ & _ & _ & _ & _ & _ & H). rewrite O in H by congruence. apply H.
  - apply monitor_tx.
  - unfold write_check. destruct (run_check_keep (set_chk s (Some w))) as (_ & _ & _ & _ & _ & _ & _ & _ & _ & B). exact B.
  - cbn [fst] in W. subst off. reflexivity.
  - unfold restart_tx. rewrite W in A. destruct (o_adj s) as [[|]|]; try discriminate A. reflexivity.
  - reflexivity.
  - cbn [fst] in W. destruct (boot_fields ds cyc t (o_file s) (o_sent s)) as (_ & _ & _ & _ & _ & _ & _ & _ & _ & B). rewrite B, F.
    rewrite W in G. destruct a as [[|]|]; try discriminate G. reflexivity.
Qed.
Print Assumptions C104_silent.

(** Events that start sending, if there is room in the scheduler and sending is not
    switched off. *)
Definition starts (e : event) : Prop := e = WriteAdjust false true \/ e = RestartTx true \/ e = Restart.

Definition sending (cyc : Z) (h : list (Z * event)) (s : port) : Prop :=
  exists ts rest e, o_sent s = ts :: rest /\ In (ts, e) h /\ o_tx s = Some (ts + wait cyc 5000000).

Lemma sending_start : forall ds cyc l s t e h, inv104 l s -> starts e -> switched_off (l ++ [(t, e)]) = false ->
  sending cyc (h ++ [(t, e)]) (step ds cyc s (t, e)).
Proof.
  intros ds cyc l s t e h (A & (c & a & F & G) & O) S W. unfold switched_off in A, W. rewrite adjusted_snoc in W. cbn [snd] in W.
  assert (I : In (t, e) (h ++ [(t, e)])) by (apply in_app_iff; right; left; reflexivity).
  destruct S as [->|[->| ->]]; cbn [step].
  - exists t, (o_sent s), (WriteAdjust false true). split; [reflexivity|]. split; [exact I|]. cbn. apply start_room.
  - unfold restart_tx. rewrite W in A. exists t, (o_sent s), (RestartTx true). destruct (o_adj s) as [[|]|] eqn:E; try discriminate A;
      (split; [reflexivity|]; split; [exact I|]; cbn; apply start_room).
  - destruct (boot_fields ds cyc t (o_file s) (o_sent s)) as (_ & _ & _ & _ & _ & _ & _ & _ & B1 & B2). cbn [fst] in W. rewrite W in G.
    exists t, (o_sent s), Restart. rewrite B1, B2, F. destruct a as [[|]|]; try discriminate G; auto.
Qed.

Lemma sending_step : forall ds cyc l s x h, inv104 l s -> sending cyc h s -> switched_off (l ++ [x]) = false ->
  sending cyc (h ++ [x]) (step ds cyc s x).
Proof.
  intros ds cyc l s [t e] h I (ts & rest & e0 & S & H & T) W.
  assert (IH : In (ts, e0) (h ++ [(t, e)])) by (apply in_app_iff; left; exact H).
  assert (IN : In (t, e) (h ++ [(t, e)])) by (apply in_app_iff; right; left; reflexivity).
  assert (K : forall s', o_tx s' = o_tx s -> o_sent s' = o_sent s -> sending cyc (h ++ [(t, e)]) s').
  { intros s' A B. exists ts, rest, e0. rewrite A, B. auto. }
  assert (N : forall s', o_tx s' = Some (t + wait cyc 5000000) -> o_sent s' = t :: o_sent s -> sending cyc (h ++ [(t, e)]) s').
  { intros s' A B. exists t, (o_sent s), e. rewrite A, B. auto. }
  destruct I as (A & (c & a & F & G) & O). unfold switched_off in A, W. rewrite adjusted_snoc in W. cbn [snd] in W.
  destruct e as [buf room| |r|w|off room| |room|room| |]; cbn [step].
  - destruct (recv_tx ds cyc t room buf s) as (X & Y & _). apply K; assumption.
  - destruct (handle_fields cyc t s) as (_ & _ & _ & _ & _ & _ & X). destruct (due t (o_tx s)); [apply N|apply K]; apply X.
  - destruct (monitor_tx r s) as (X & Y & _). apply K; assumption.
  - unfold write_check. destruct (run_check_keep (set_chk s (Some w))) as (_ & _ & _ & X & _ & _ & _ & _ & _ & Y). apply K; assumption.
  - cbn [fst] in W. subst off. apply N; [|reflexivity]. cbn. rewrite T. reflexivity.
  - apply K; reflexivity.
  - apply K; reflexivity.
  - unfold restart_tx. rewrite W in A. destruct (o_adj s) as [[|]|]; try discriminate A; (apply N; [cbn; rewrite T|]; reflexivity).
  - apply K; reflexivity.
  - cbn [fst] in W. rewrite W in G. destruct (boot_fields ds cyc t (o_file s) (o_sent s)) as (_ & _ & _ & _ & _ & _ & _ & _ & B1 & B2).
    rewrite F in B1, B2. destruct a as [[|]|]; try discriminate G; (apply N; rewrite F; [exact B1|exact B2]).
Qed.

Lemma sending_run : forall ds cyc t0 l1 x l2, starts (snd x) ->
  (forall l2' l2'', l2 = l2' ++ l2'' -> switched_off (l1 ++ x :: l2') = false) ->
  sending cyc (l1 ++ x :: l2) (run ds cyc (l1 ++ x :: l2) (boot ds cyc t0 None [])).
Proof.
  intros ds cyc t0 l1 [t e] l2 S. cbn [snd] in S. induction l2 as [|y l2 IH] using rev_ind; intros W.
  - rewrite run_snoc. apply (sending_start ds cyc l1 _ t e l1); [apply inv104_run|exact S|apply (W [] [] eq_refl)].
  - change (l1 ++ (t, e) :: l2 ++ [y]) with (l1 ++ ((t, e) :: l2) ++ [y]). rewrite app_assoc, run_snoc.
    apply (sending_step ds cyc (l1 ++ (t, e) :: l2)).
    + apply inv104_run.
    + apply IH. intros a b E. apply (W a (b ++ [y])). rewrite E, app_assoc. reflexivity.
    + rewrite <- app_assoc. cbn [app]. apply (W (l2 ++ [y]) []). rewrite app_nil_r. reflexivity.
Qed.

(** Once sending was started it goes on as long as it is not switched off: after
    each call of pnet_handle_periodic() the last frame was sent less than five
    seconds (and a cycle) ago.  Missing: a reset or a refused connect while sending
    is switched off, and a full scheduler, see below. *)
Theorem C104_every_partial : forall ds cyc t0 l1 x l2 t, cyc_ok cyc -> starts (snd x) ->
  (forall l2' l2'', l2 ++ [(t, Handle)] = l2' ++ l2'' -> switched_off (l1 ++ x :: l2') = false) ->
  let h := l1 ++ x :: l2 ++ [(t, Handle)] in
  exists ts rest e, o_sent (run ds cyc h (boot ds cyc t0 None [])) = ts :: rest /\ In (ts, e) h /\ t < ts + 5000000 + cyc.
Proof.
  intros ds cyc t0 l1 x l2 t C S W h.
  destruct (sending_run ds cyc t0 l1 x l2 S) as (ts & rest & e & E1 & E2 & E3).
  { intros a b E. apply (W a (b ++ [(t, Handle)])). rewrite E, app_assoc. reflexivity. }
  unfold h. change (l1 ++ x :: l2 ++ [(t, Handle)]) with (l1 ++ (x :: l2) ++ [(t, Handle)]). rewrite app_assoc, run_snoc. cbn [step].
  set (s := run ds cyc (l1 ++ x :: l2) (boot ds cyc t0 None [])) in *. clearbody s.
  destruct (handle_fields cyc t s) as (_ & _ & _ & _ & _ & _ & X). rewrite E3 in X. cbn [due] in X.
  destruct (Z.leb_spec (ts + wait cyc 5000000) t) as [D|D]; destruct X as [_ X]; rewrite X.
  - exists t, (o_sent s), Handle. split; [reflexivity|]. split; [apply in_app_iff; right; left; reflexivity|]. unfold cyc_ok in C. lia.
  - exists ts, rest, e. split; [exact E1|]. split; [apply in_app_iff; left; exact E2|].
    pose proof (wait_le cyc 5000000 C ltac:(lia)). lia.
Qed.
Print Assumptions C104_every_partial.

Example C104_example :
  let l2 := [(3000000, Handle); (5000000, Handle); (6000000, Reset); (9000000, Frame (a_frame 20) true)] in
  (forall l2' l2'', l2 ++ [(9900000, Handle)] = l2' ++ l2'' -> switched_off ([] ++ (0, Restart) :: l2') = false) /\
  o_sent (run 60 1000 ([] ++ (0, Restart) :: l2 ++ [(9999500, Handle)]) (boot 60 1000 0 None [])) = [9999500; 5000000; 0; 0].
Proof.
  cbv zeta. split; [|vm_compute; reflexivity]. intros l2' l2'' E.
  do 5 (destruct l2' as [|? l2']; [reflexivity|cbn [app] in E; injection E; clear E; intros E <-]).
  destruct l2' as [|? l2']; [reflexivity|discriminate E].
Qed.

(** After a factory reset through the API while sending is switched off the port
    stays silent, although nothing switches it off any more. *)
Theorem C104_reset_refuted : forall ts,
  let l := [(0, WriteAdjust true true); (1, Reset)] ++ map (fun t => (t, Handle)) ts in
  switched_off l = false /\ o_sent (run 60 1000 l (boot 60 1000 0 None [])) = [0].
Proof.
  intros ts l. assert (H : forall ts, let l := [(0, WriteAdjust true true); (1, Reset)] ++ map (fun t => (t, Handle)) ts in
    switched_off l = false /\ o_tx (run 60 1000 l (boot 60 1000 0 None [])) = None /\ o_sent (run 60 1000 l (boot 60 1000 0 None [])) = [0]).
  { clear. induction ts as [|t ts IH] using rev_ind; [vm_compute; auto|]. rewrite map_app. cbn [map]. cbv zeta. rewrite app_assoc, run_snoc.
    destruct IH as (A & B & C). split; [unfold switched_off; rewrite adjusted_snoc; exact A|].
    set (s := run 60 1000 _ _) in *. clearbody s. cbn [step]. destruct (handle_fields 1000 t s) as (_ & _ & _ & _ & _ & _ & X).
    rewrite B in X. cbn [due] in X. destruct X as [-> ->]. auto. }
  destruct (H ts) as (A & _ & B). split; [exact A|exact B].
Qed.
Print Assumptions C104_reset_refuted.

(** If the scheduler is full when sending is switched on again, one frame is sent
    and then no other. *)
Theorem C104_full_refuted : forall ts,
  let l := [(0, WriteAdjust true true); (1, WriteAdjust false false)] ++ map (fun t => (t, Handle)) ts in
  switched_off l = false /\ o_sent (run 60 1000 l (boot 60 1000 0 None [])) = [1; 0].
Proof.
  intros ts l. assert (H : forall ts, let l := [(0, WriteAdjust true true); (1, WriteAdjust false false)] ++ map (fun t => (t, Handle)) ts in
    switched_off l = false /\ o_tx (run 60 1000 l (boot 60 1000 0 None [])) = None /\ o_sent (run 60 1000 l (boot 60 1000 0 None [])) = [1; 0]).
  { clear. induction ts as [|t ts IH] using rev_ind; [vm_compute; auto|]. rewrite map_app. cbn [map]. cbv zeta. rewrite app_assoc, run_snoc.
    destruct IH as (A & B & C). split; [unfold switched_off; rewrite adjusted_snoc; exact A|].
    set (s := run 60 1000 _ _) in *. clearbody s. cbn [step]. destruct (handle_fields 1000 t s) as (_ & _ & _ & _ & _ & _ & X).
    rewrite B in X. cbn [due] in X. destruct X as [-> ->]. auto. }
  destruct (H ts) as (A & _ & B). split; [exact A|exact B].
Qed.
Print Assumptions C104_full_refuted.

(** * C105: topology errors *)

(** ** Specification *)

Definition begins (s w : list Z) : Prop := exists r, s = w ++ r.

(** The time of the last start of the device. *)
Definition started (t0 : Z) (l : list (Z * event)) : Z :=
  fold_left (fun b x => match snd x with Restart => fst x | _ => b end) l t0.

(** No frame is empty: each says something or has a time to live. *)
Definition no_empty (ds : Z) (l : list (Z * event)) : Prop :=
  forall t buf room, In (t, Frame buf room) l -> ~ says ds buf (peer0 ds).

(** The diagnoses are right for the wanted neighbour [w]: no peer exactly if there
    is none; a wrong port name exactly if the port id of the neighbour does not begin
    with the wanted name; a wrong station name exactly if the wanted name does not
    begin with the name of the neighbour.  Of a neighbour without a name nothing is
    said. *)
Definition right_diagnoses (w : wanted) (s : port) : Prop :=
  (o_nopeer s = true <-> o_recv s = false) /\
  (i_valid (p_pid (o_info s)) = true -> (o_badport s = true <-> ~ begins (text (p_pid (o_info s))) (w_port w))) /\
  (peer_station (o_info s) <> [] -> (o_badstation s = true <-> ~ begins (w_station w) (peer_station (o_info s)))).

(** ** Proof *)

Lemma strncmp_port : forall w l, ~ In 0 w -> (strncmp0 (length w) l (w ++ [0]) = true <-> begins (cstr l) w).
Proof.
  induction w as [|x w IH]; intros l N; cbn [length strncmp0].
  - split; [intros _; exists (cstr l); reflexivity|reflexivity].
  - assert (NX : x <> 0) by (intros ->; apply N; left; reflexivity). cbn [app hd tl].
    destruct l as [|y l]; cbn [hd tl cstr].
    + destruct (Z.eqb_spec 0 x); [congruence|]. split; [discriminate|]. intros [r H]. discriminate H.
    + destruct (Z.eqb_spec y x) as [->|NE].
      * destruct (Z.eqb_spec x 0); [contradiction|]. rewrite IH by (intros H; apply N; right; exact H).
        split; intros [r H]; exists r; cbn [app]; [rewrite H; reflexivity|injection H; auto].
      * split; [discriminate|]. intros [r H]. exfalso. destruct (y =? 0); [discriminate H|]. injection H as H _. contradiction.
Qed.

Lemma strncmp_station : forall n w, ~ In 0 n -> ~ In 0 w -> (strncmp0 (length n) n (w ++ [0]) = true <-> begins w n).
Proof.
  induction n as [|x n IH]; intros w N M; cbn [length strncmp0].
  - split; [intros _; exists w; reflexivity|reflexivity].
  - assert (NX : x <> 0) by (intros ->; apply N; left; reflexivity). cbn [hd tl].
    destruct w as [|y w]; cbn [app hd tl].
    + destruct (Z.eqb_spec x 0); [contradiction|]. split; [discriminate|]. intros [r H]. discriminate H.
    + destruct (Z.eqb_spec x y) as [->|NE].
      * destruct (Z.eqb_spec y 0); [contradiction|]. rewrite IH; [|intros H; apply N; right; exact H|intros H; apply M; right; exact H].
        split; intros [r H]; exists r; cbn [app]; [rewrite H; reflexivity|injection H; auto].
      * split; [discriminate|]. intros [r H]. injection H as H _. congruence.
Qed.

Lemma cstr_nonzero : forall l, ~ In 0 (cstr l).
Proof.
  induction l as [|x l IH]; cbn [cstr]; [intros []|]. destruct (Z.eqb_spec x 0); [intros []|]. intros [H|H]; [contradiction|exact (IH H)].
Qed.
Lemma firstn_nonzero : forall n l, ~ In 0 l -> ~ In (0 : Z) (firstn n l).
Proof. intros n l N H. apply N. rewrite <- (firstn_skipn n l). apply in_app_iff. left. exact H. Qed.
Lemma after_dot_nonzero : forall l r, after_dot l = Some r -> ~ In 0 l -> ~ In 0 r.
Proof.
  induction l as [|x l IH]; intros r E N; cbn [after_dot] in E; [discriminate E|]. destruct (x =? 46).
  - injection E as <-. intros H. apply N. right. exact H.
  - apply IH; [exact E|]. intros H. apply N. right. exact H.
Qed.
Lemma hex1_nonzero : forall x, 0 <= x < 16 -> hex1 x <> 0.
Proof. intros x H. unfold hex1. destruct (x <? 10); lia. Qed.
Lemma mac_nonzero : forall m, Forall (fun x => 0 <= x < 256) m -> ~ In 0 (mac_string m).
Proof.
  assert (X : forall x, 0 <= x < 256 -> ~ In 0 (hex2 x)).
  { intros x H [E|[E|[]]]; revert E; apply hex1_nonzero; [|apply Z.mod_pos_bound; lia].
    split; [apply Z.div_pos; lia|apply Z.div_lt_upper_bound; lia]. }
  intros [|x m] F; cbn [mac_string]; [intros []|]. inversion F as [|? ? Hx Hm]; subst. intros H. apply in_app_iff in H. destruct H as [H|H]; [exact (X _ Hx H)|].
  apply in_flat_map in H. destruct H as (y & Y & [E|H]); [discriminate E|]. rewrite Forall_forall in Hm. exact (X y (Hm y Y) H).
Qed.

(** A name is a string without zero bytes, if the id consists of bytes. *)
Lemma station_nonzero : forall p, Forall (fun x => 0 <= x < 256) (i_str (p_cid p)) -> ~ In 0 (peer_station p).
Proof.
  intros p B. unfold peer_station, snprintf.
  assert (R : ~ In 0 (if i_valid (p_cid p) then if i_sub (p_cid p) =? 4 then firstn (Z.to_nat (241 - 1)) (mac_string (firstn 6 (i_str (p_cid p))))
      else firstn (Z.to_nat (241 - 1)) (cstr (i_str (p_cid p))) else [])).
  { destruct (i_valid (p_cid p)); [|intros []]. destruct (i_sub (p_cid p) =? 4); apply firstn_nonzero; [|apply cstr_nonzero].
    apply mac_nonzero. apply Forall_forall. intros x H. rewrite Forall_forall in B. apply B. rewrite <- (firstn_skipn 6 (i_str (p_cid p))).
    apply in_app_iff. left. exact H. }
  destruct (i_valid (p_pid p)); [|exact R]. destruct (after_dot (cstr (i_str (p_pid p)))) as [r|] eqn:E; [|exact R].
  apply firstn_nonzero. apply (after_dot_nonzero _ _ E). apply cstr_nonzero.
Qed.

(** The diagnoses as the program computes them. *)
Definition exact_diag (w : wanted) (s : port) : Prop :=
  o_nopeer s = negb (o_recv s) /\
  (i_valid (p_pid (o_info s)) = true ->
    o_badport s = negb (strncmp0 (length (w_port w)) (i_str (p_pid (o_info s))) (w_port w ++ [0]))) /\
  (peer_station (o_info s) <> [] ->
    o_badstation s = negb (strncmp0 (length (peer_station (o_info s))) (peer_station (o_info s)) (w_station w ++ [0]))).

Lemma run_check_exact : forall s w, o_chk s = Some w -> exact_diag w (run_check s).
Proof.
  intros s w E. unfold run_check. rewrite E. unfold check_station, check_port, check_nopeer, exact_diag. cbn [set_diag o_info].
  destruct (i_valid (p_pid (o_info s))) eqn:V; cbn [set_diag o_info];
    destruct (Z.eqb_spec (Z.of_nat (length (peer_station (o_info s)))) 0) as [L|L];
    cbn [set_diag o_info o_nopeer o_recv o_badport o_badstation]; rewrite ?V; (split; [reflexivity|split]); intros H; try reflexivity; try discriminate H;
    destruct (peer_station (o_info s)); try contradiction; cbn [length] in L; lia.
Qed.

Lemma exact_same : forall w s s', o_recv s' = o_recv s -> o_info s' = o_info s -> o_nopeer s' = o_nopeer s -> o_badport s' = o_badport s ->
  o_badstation s' = o_badstation s -> exact_diag w s -> exact_diag w s'.
Proof. intros w s s' A B C D E H. unfold exact_diag in *. rewrite A, B, C, D, E. exact H. Qed.

(** Waiting for the first check after a start. *)
Definition waiting (ds cyc t0 : Z) (s : port) : Prop :=
  o_recv s = false /\ o_info s = peer0 ds /\ exists d, o_rx s = Some d /\ d <= t0 + cyc.

Definition inv105 (ds cyc t0 : Z) (l : list (Z * event)) (s : port) : Prop :=
  forall w, o_chk s = Some w -> o_upd s = true \/ exact_diag w s \/ waiting ds cyc (started t0 l) s.

Lemma started_snoc : forall t0 l x, started t0 (l ++ [x]) = match snd x with Restart => fst x | _ => started t0 l end.
Proof. intros. unfold started. rewrite fold_left_app. reflexivity. Qed.

(** What one call of pnet_handle_periodic() does to the diagnoses. *)
Lemma handle_diag : forall cyc t s w, o_chk s = Some w -> 
  exact_diag w (handle cyc t s) \/
  (due t (o_rx s) = false /\ o_upd s = false /\ o_nopeer (handle cyc t s) = o_nopeer s /\ o_badport (handle cyc t s) = o_badport s /\
   o_badstation (handle cyc t s) = o_badstation s).
Proof.
  intros cyc t s w E. unfold handle.
  set (s1 := if due t (o_rx s) then rx_expired s else s).
  assert (E1 : o_chk s1 = Some w /\ (due t (o_rx s) = false /\ o_upd s = false /\ s1 = s \/ o_upd s1 = true)).
  { unfold s1. destruct (due t (o_rx s)); cbn; [auto|]. destruct (o_upd s); auto. }
  clearbody s1. cbv zeta. set (s2 := if due t (o_tx s1) then _ else s1).
  assert (E2 : o_chk s2 = o_chk s1 /\ o_upd s2 = o_upd s1 /\ o_nopeer s2 = o_nopeer s1 /\ o_badport s2 = o_badport s1 /\ o_badstation s2 = o_badstation s1).
  { unfold s2. destruct (due t (o_tx s1)); cbn; auto 10. }
  clearbody s2. destruct E2 as (C & U & D1 & D2 & D3). destruct E1 as [E1 [(G1 & G2 & ->)|G]].
  - right. rewrite U, G2, D1, D2, D3. auto.
  - left. rewrite U, G. apply run_check_exact. cbn. rewrite C. exact E1.
Qed.

Lemma inv105_step : forall ds cyc t0 l s x, cyc_ok cyc -> no_empty ds (l ++ [x]) -> inv105 ds cyc t0 l s -> inv105 ds cyc t0 (l ++ [x]) (step ds cyc s x).
Proof.
  intros ds cyc t0 l s [t e] C NE I.
  assert (K : forall s', o_recv s' = o_recv s -> o_info s' = o_info s -> o_rx s' = o_rx s -> o_upd s' = o_upd s -> o_chk s' = o_chk s ->
    o_nopeer s' = o_nopeer s -> o_badport s' = o_badport s -> o_badstation s' = o_badstation s -> e <> Restart -> inv105 ds cyc t0 (l ++ [(t, e)]) s').
  { intros s' A1 A2 A3 A4 A5 A6 A7 A8 A9 w. rewrite A5. intros W. rewrite A4. unfold waiting. rewrite A1, A2, A3.
    replace (started t0 (l ++ [(t, e)])) with (started t0 l) by (rewrite started_snoc; cbn [snd]; destruct e; try reflexivity; contradiction).
    destruct (I w W) as [H|[H|H]]; [auto| |auto]. right. left. exact (exact_same w s s' A1 A2 A6 A7 A8 H). }
  destruct e as [buf room| |r|w|off room| |room|room| |]; cbn [step].
  - unfold recv. destruct (parse ds _ buf _) as [[p|]| |] eqn:P; try (apply K; auto; discriminate).
    unfold update_peer. cbv zeta. set (s1 := restart_rx cyc t room (p_ttl p) s).
    assert (S1 : o_recv s1 = o_recv s /\ o_info s1 = o_info s /\ o_upd s1 = o_upd s /\ o_chk s1 = o_chk s /\ o_nopeer s1 = o_nopeer s /\
      o_badport s1 = o_badport s /\ o_badstation s1 = o_badstation s) by (unfold s1, restart_rx; destruct (60 <? p_ttl p); cbn; auto 10).
    clearbody s1. destruct S1 as (S1 & S2 & S3 & S4 & S5 & S6 & S7). destruct (peer_eq_dec p (o_info s1)) as [E|E].
    + intros w W. rewrite S4 in W. rewrite S3. destruct (I w W) as [H|[H|H]]; [auto| |].
      * right. left. exact (exact_same w s s1 S1 S2 S5 S6 S7 H).
      * exfalso. destruct H as (_ & H & _). apply (NE t buf room); [apply in_app_iff; right; left; reflexivity|].
        unfold says. rewrite P, E, S2, H. reflexivity.
    + intros w W. left. reflexivity.
  - intros w W. destruct (handle_fields cyc t s) as (_ & H2 & _ & _ & _ & H6 & _). rewrite H2 in W.
    destruct (handle_diag cyc t s w W) as [H|(D & U & D1 & D2 & D3)]; [auto|]. rewrite D in H6. destruct H6 as (X1 & X2 & X3).
    right. destruct (I w W) as [H|[H|H]]; [congruence| |].
    + left. exact (exact_same w s _ X1 X2 D1 D2 D3 H).
    + right. unfold waiting. rewrite X1, X2, X3. rewrite started_snoc. exact H.
  - unfold monitor. cbv zeta. destruct (o_up s && negb r); [|apply K; try reflexivity; discriminate]. intros w W. left. reflexivity.
  - intros w' W. right. left. unfold write_check in *. destruct (run_check_keep (set_chk s (Some w))) as (_ & _ & _ & _ & _ & _ & X & _).
    rewrite X in W. apply run_check_exact. exact W.
  - unfold write_adjust. cbv zeta. destruct off; apply K; try reflexivity; discriminate.
  - intros w W. discriminate W.
  - intros w W. discriminate W.
  - unfold restart_tx. destruct (o_adj s) as [[|]|]; apply K; try reflexivity; discriminate.
  - apply K; try reflexivity; discriminate.
  - intros w W. right. right. destruct (boot_fields ds cyc t (o_file s) (o_sent s)) as (B1 & B2 & _ & _ & B5 & _ & B7 & _).
    unfold waiting. rewrite B1, B2, B7. split; [reflexivity|]. split; [reflexivity|]. rewrite B5 in W.
    destruct (o_file s) as [[[w'|] a]|]; try discriminate W. eexists. split; [reflexivity|]. rewrite started_snoc. cbn [snd fst].
    pose proof (wait_le cyc 0 C ltac:(lia)). lia.
Qed.

Lemma inv105_run : forall ds cyc t0 l, cyc_ok cyc -> no_empty ds l -> inv105 ds cyc t0 l (run ds cyc l (boot ds cyc t0 None [])).
Proof.
  intros ds cyc t0 l C. induction l as [|x l IH] using rev_ind; intros N.
  - intros w W. discriminate W.
  - rewrite run_snoc. apply inv105_step; [exact C|exact N|]. apply IH. intros t buf room I. apply (N t buf room). apply in_app_iff. left. exact I.
Qed.

(** After each call of pnet_handle_periodic(), from one cycle after the start on, the
    diagnoses are right, but only in the sense of [right_diagnoses].  Missing: names
    that differ though one begins with the other, and the diagnosis of a neighbour
    that is gone, see below. *)
Theorem C105_diagnoses_partial : forall ds cyc t0 l t w, cyc_ok cyc -> no_empty ds l ->
  started t0 l + cyc <= t ->
  let s := run ds cyc (l ++ [(t, Handle)]) (boot ds cyc t0 None []) in
  o_chk s = Some w -> ~ In 0 (w_port w) -> ~ In 0 (w_station w) -> Forall (fun x => 0 <= x < 256) (i_str (p_cid (o_info s))) ->
  right_diagnoses w s.
Proof.
  intros ds cyc t0 l t w C N T s W NP NS BY. unfold s in *. clear s. rewrite run_snoc in *. pose proof (inv105_run ds cyc t0 l C N) as I.
  set (s := run ds cyc l (boot ds cyc t0 None [])) in *. clearbody s. cbn [step] in *.
  destruct (handle_fields cyc t s) as (_ & H2 & _ & _ & _ & H6 & _). rewrite H2 in W.
  assert (X : exact_diag w (handle cyc t s)).
  { destruct (handle_diag cyc t s w W) as [H|(D & U & D1 & D2 & D3)]; [exact H|]. rewrite D in H6. destruct H6 as (X1 & X2 & X3).
    destruct (I w W) as [H|[H|H]]; [congruence| |].
    - exact (exact_same w s _ X1 X2 D1 D2 D3 H).
    - exfalso. destruct H as (_ & _ & d & E & L). rewrite E in D. cbn [due] in D. apply Z.leb_gt in D. lia. }
  set (s' := handle cyc t s) in *. clearbody s'. destruct X as (X1 & X2 & X3). split; [|split].
  - rewrite X1. destruct (o_recv s'); cbn [negb]; split; congruence.
  - intros V. rewrite (X2 V). pose proof (strncmp_port (w_port w) (i_str (p_pid (o_info s'))) NP) as Q. unfold text. rewrite <- Q.
    rewrite negb_true_iff. symmetry. apply not_true_iff_false.
  - intros V. rewrite (X3 V). pose proof (strncmp_station (peer_station (o_info s')) (w_station w) (station_nonzero _ BY) NS) as Q. rewrite <- Q.
    rewrite negb_true_iff. symmetry. apply not_true_iff_false.
Qed.
Print Assumptions C105_diagnoses_partial.

(** "port-002" of "a" is wanted, "port-001" of "a" is there. *)
Definition want_2a : wanted := mkWanted [112; 111; 114; 116; 45; 48; 48; 50] [97].
Definition ex105 : list (Z * event) := [(0, Monitor true); (10, WriteCheck want_2a); (20, Frame (a_frame 20) true)].
Example C105_example :
  let s := run 60 1000 (ex105 ++ [(1500, Handle)]) (boot 60 1000 0 None []) in
  no_empty 60 ex105 /\ started 0 ex105 + 1000 <= 1500 /\ o_chk s = Some want_2a /\
  Forall (fun x => 0 <= x < 256) (i_str (p_cid (o_info s))) /\
  o_nopeer s = false /\ o_badport s = true /\ o_badstation s = false.
Proof.
  cbv zeta. split.
  { intros t buf room [E|[E|[E|[]]]]; inversion E; subst. intros H. destruct a_says as (S & _). unfold says in *. rewrite S in H.
    apply (f_equal (fun o => match o with Ok (Some p) => p_ttl p | _ => 0 end)) in H. vm_compute in H. discriminate H. }
  split; [vm_compute; discriminate|]. split; [vm_compute; reflexivity|]. split.
  - apply Forall_forall. intros x H. assert (B : forallb (fun x => (0 <=? x) && (x <? 256)) (i_str (p_cid (o_info (run 60 1000 (ex105 ++ [(1500, Handle)]) (boot 60 1000 0 None []))))) = true)
      by (vm_compute; reflexivity). rewrite forallb_forall in B. apply B in H. lia.
  - vm_compute. auto.
Qed.

(** "port-00" of "abc" is wanted, "port-001" of "a" is there: no diagnosis. *)
Theorem C105_prefix_refuted :
  let w := mkWanted [112; 111; 114; 116; 45; 48; 48] [97; 98; 99] in
  let s := run 60 1000 [(0, Monitor true); (10, WriteCheck w); (20, Frame (a_frame 20) true); (1500, Handle)] (boot 60 1000 0 None []) in
  o_nopeer s = false /\ o_badport s = false /\ o_badstation s = false /\
  text (p_pid (o_info s)) = [112; 111; 114; 116; 45; 48; 48; 49; 46; 97] /\ peer_station (o_info s) = [97].
Proof. vm_compute. auto 10. Qed.
Print Assumptions C105_prefix_refuted.

(** The wrong neighbour is unplugged: both "no peer" and "wrong port" are reported. *)
Theorem C105_stale_refuted :
  let s := run 60 1000 (ex105 ++ [(1500, Handle); (2000, Monitor false); (2500, Handle)]) (boot 60 1000 0 None []) in
  o_recv s = false /\ o_nopeer s = true /\ o_badport s = true.
Proof. vm_compute. auto. Qed.
Print Assumptions C105_stale_refuted.

(** * C106: reading port data *)

Definition ports_from (k : nat) (p : Z) : list Z := map (fun i => p + Z.of_nat i) (seq 0 k).

Lemma real_loop_run : forall n k p fuel, 1 <= p -> p + Z.of_nat k = n + 1 -> (1 <= k)%nat -> (k < fuel)%nat ->
  real_loop fuel p (mkIter (if p =? n then 0 else p + 1) n) = Some (map BMulti (ports_from k p)).
Proof.
  intros n k. induction k as [|k IH]; intros p fuel P E K F; [lia|]. destruct fuel as [|fuel]; [lia|]. cbn [real_loop].
  destruct (Z.eqb_spec p 0); [lia|]. cbn [negb]. unfold get_next. cbn [it_next it_n].
  destruct (Z.eqb_spec p n) as [->|NE].
  - destruct k as [|k]; [|lia]. rewrite orb_true_r. destruct fuel as [|fuel]; [lia|]. cbn. rewrite Z.add_0_r. reflexivity.
  - destruct (Z.eqb_spec (p + 1) n) as [E1|E1].
    + destruct k as [|[|k]]; [lia| |lia]. cbn [orb]. specialize (IH (p + 1) fuel ltac:(lia) ltac:(lia) ltac:(lia) ltac:(lia)).
      rewrite E1, Z.eqb_refl in IH. rewrite E1 in *. rewrite IH. unfold ports_from. cbn. rewrite Z.add_0_r, Z.add_0_r. do 3 f_equal. f_equal. lia.
    + destruct (Z.eqb_spec (p + 1) 0); [lia|]. cbn [orb]. destruct (Z.ltb_spec n (p + 1)); [lia|].
      destruct k as [|k]; [lia|]. specialize (IH (p + 1) fuel ltac:(lia) ltac:(lia) ltac:(lia) ltac:(lia)).
      destruct (Z.eqb_spec (p + 1) n); [lia|]. rewrite IH. f_equal. unfold ports_from.
      change (seq 0 (S (S k))) with (0%nat :: seq 1 (S k)). cbn [map]. rewrite Z.add_0_r. f_equal. rewrite <- seq_shift, !map_map.
      apply map_ext. intros i. f_equal. lia.
Qed.

(** Every read ends, except of the check data of the whole module. *)
Theorem C106_ends_partial : forall n chk adj stat mode slot subslot index, 1 <= n ->
  ~ (index = 32811 /\ slot = 0 /\ subslot = 0) ->
  exists r, forall fuel, (Z.to_nat n < fuel)%nat -> read_ind n chk adj stat mode fuel slot subslot index = Some r.
Proof.
  intros n chk adj stat mode slot subslot index N X. unfold read_ind. cbv zeta.
  destruct (index =? 32810); [destruct ((slot =? 0) && subslot_is_port n subslot); eexists; intros; reflexivity|].
  destruct (index =? 32815); [destruct ((slot =? 0) && subslot_is_port n subslot); eexists; intros; reflexivity|].
  destruct (Z.eqb_spec index 32811) as [->|_].
  { destruct ((slot =? 0) && subslot_is_port n subslot); [eexists; intros; reflexivity|].
    destruct (Z.eqb_spec slot 0) as [->|]; [|eexists; intros; reflexivity].
    destruct (Z.eqb_spec subslot 0) as [->|]; [exfalso; auto|eexists; intros; reflexivity]. }
  destruct (index =? 63553).
  { exists (0, BInterface :: map BMulti (ports_from (Z.to_nat n) 1)). intros fuel F. unfold get_next, iter_init. cbn [it_next it_n].
    pose proof (real_loop_run n (Z.to_nat n) 1 fuel ltac:(lia) ltac:(lia) ltac:(lia) F) as R.
    rewrite orb_false_r. destruct (Z.eqb_spec 1 n); [rewrite R; reflexivity|]. destruct (Z.ltb_spec n 1); [lia|]. change (1 + 1) with 2 in *. rewrite R. reflexivity. }
  destruct (index =? 63554); [eexists; intros; reflexivity|].
  destruct (index =? 32882).
  { destruct ((slot =? 0) && ((subslot =? 32768) || subslot_is_port n subslot)); [destruct (stat _)|]; eexists; intros; reflexivity. }
  destruct (index =? 32881); [destruct ((slot =? 0) && (subslot =? 32768))|]; eexists; intros; reflexivity.
Qed.
Print Assumptions C106_ends_partial.

(** The combined read has one block for each port, in order. *)
Theorem C106_all_ports : forall n chk adj stat mode slot subslot fuel, 1 <= n -> (Z.to_nat n < fuel)%nat ->
  read_ind n chk adj stat mode fuel slot subslot 63553 = Some (0, BInterface :: map BMulti (ports_from (Z.to_nat n) 1)).
Proof.
  intros n chk adj stat mode slot subslot fuel N F. unfold read_ind. cbv zeta. change (63553 =? 32810) with false. change (63553 =? 32815) with false.
  change (63553 =? 32811) with false. change (63553 =? 63553) with true. cbv iota. unfold get_next, iter_init. cbn [it_next it_n].
  pose proof (real_loop_run n (Z.to_nat n) 1 fuel ltac:(lia) ltac:(lia) ltac:(lia) F) as R.
  rewrite orb_false_r. destruct (Z.eqb_spec 1 n); [rewrite R; reflexivity|]. destruct (Z.ltb_spec n 1); [lia|]. change (1 + 1) with 2 in *. rewrite R. reflexivity.
Qed.
Print Assumptions C106_all_ports.

(** The read of the check data of slot 0, subslot 0 never ends: one read request of
    any client stops the device. *)
Theorem C106_whole_module_refuted : forall n chk adj stat mode fuel, 1 <= n ->
  read_ind n chk adj stat mode fuel 0 0 32811 = None.
Proof.
  intros n chk adj stat mode fuel N. unfold read_ind. cbv zeta. cbn [Z.eqb andb].
  assert (P : subslot_is_port n 0 = false).
  { unfold subslot_is_port, subslot_to_port, port_valid. destruct (Z.ltb_spec 0 (1 + 0 - 32769)); [lia|]. reflexivity. }
  rewrite P. change (32811 =? 32810) with false. change (32811 =? 32815) with false. change (32811 =? 32811) with true. cbv iota.
  assert (L : forall f p, p <> 0 -> check_loop chk f p = None).
  { intros f p NZ. induction f as [|f IH]; [reflexivity|]. cbn [check_loop]. destruct (Z.eqb_spec p 0); [contradiction|]. cbn [negb]. rewrite IH. reflexivity. }
  unfold get_next, iter_init. cbn [it_next it_n]. rewrite orb_false_r.
  destruct (Z.eqb_spec 1 n); [rewrite L by lia; reflexivity|]. destruct (Z.ltb_spec n 1); [lia|]. rewrite L by lia. reflexivity.
Qed.
Print Assumptions C106_whole_module_refuted.

Example C106_example : read_ind 2 (fun _ => true) (fun _ => true) (fun _ => true) false 3 0 32770 63553 = Some (0, [BInterface; BMulti 1; BMulti 2]) /\
  read_ind 2 (fun _ => true) (fun _ => true) (fun _ => true) false 3 0 32770 32811 = Some (0, [BCheck 2]).
Proof. vm_compute. auto. Qed.
