(** Properties of station name and IP settings (C62 - C69). *)
From Coq Require Import List ZArith Arith Bool Lia.
From Verif Require Import Base CminaModel CminaSpec CminaValid CminaInv.
Import ListNotations.
Local Open Scope Z_scope.

(** ** C62: station names *)

(** An accepted name is empty or obeys the rules on length, characters, hyphens and
    dotted numbers, and is not "port-xyz" or "port-xyz-abcde" as a whole.  Missing:
    labels may be empty, and the first of several labels may have the form
    "port-xyz" (C62_refuted). *)
Theorem C62_sound_partial : forall s, stationname_valid s = true ->
  s = [] \/
  ((1 <= length s <= 240)%nat /\ Forall label_ok (labels s) /\ ~ port_label s /\
   ~ (length (labels s) = 4%nat /\
      Forall (fun l => (1 <= length l <= 3)%nat /\ Forall is_digit l) (labels s))).
Proof.
  intros s H. apply valid_spec in H as [->|(A & B & C & D)]; [auto|].
  destruct s as [|c r]; [auto|]. right. split; [cbn [length] in *; lia|]. split; [assumption|]. split.
  - intros (d & Fd & Ld & [E|(e & Fe & Le & E)]); apply D; rewrite E.
    + split; [reflexivity|]. rewrite app_length, Ld. split; [left; reflexivity|].
      cbn. eapply Forall_impl; [|eassumption]. auto.
    + split; [reflexivity|]. rewrite !app_length. cbn [length]. rewrite Ld, Le. split; [right; reflexivity|].
      cbn. apply Forall_app. split; [eapply Forall_impl; [|eassumption]; auto|].
      constructor; [auto|]. eapply Forall_impl; [|eassumption]. auto.
  - intros [E F]. apply C. split; [assumption|]. eapply Forall_impl; [|eassumption]. cbn. intros ? []; assumption.
Qed.

(** A name that obeys all rules is accepted, unless it is "port-" followed by three
    or nine digits and hyphens, or consists of four numbers one of which is longer
    than three digits. *)
Theorem C62_complete_partial : forall s, standard_name s ->
  ~ (firstn 5 s = [112; 111; 114; 116; 45] /\ (length s = 8%nat \/ length s = 14%nat) /\
     Forall (fun c => is_digit c \/ c = 45) (skipn 5 s)) ->
  ~ (length (labels s) = 4%nat /\ Forall (Forall is_digit) (labels s)) ->
  stationname_valid s = true.
Proof.
  intros s (A & B & _ & _) H1 H2. apply valid_spec. right.
  split; [lia|]. split; [|split; assumption].
  eapply Forall_impl; [|eassumption]. cbn. intros ? []; assumption.
Qed.

Lemma label_dec : forall l, l <> [] ->
  (length l <=? 63)%nat && forallb (fun c => islower c || isdigit c || (c =? hyphen)) l
    && negb (hd 0 l =? 45) && negb (last l 0 =? 45) = true ->
  l <> [] /\ label_ok l.
Proof.
  intros l N H. rewrite !andb_true_iff, !negb_true_iff, !Z.eqb_neq, Nat.leb_le, forallb_forall in H.
  split; [assumption|]. destruct H as (((A & B) & C) & D). split; [assumption|]. split; [|tauto].
  apply Forall_forall. intros x Hx. apply char_spec, B, Hx.
Qed.
Ltac labels := repeat (constructor; [apply label_dec; [discriminate|reflexivity]|]); constructor.

(** "a..b" and "port-001.a" are accepted though they break the rules; "port-1-1" and
    "1000.1.1.1" are refused though they obey them. *)
Theorem C62_refuted :
  (exists s, stationname_valid s = true /\ s <> [] /\ In [] (labels s)) /\
  (exists s, stationname_valid s = true /\ s <> [] /\ port_label (hd [] (labels s))) /\
  (exists s, stationname_valid s = false /\ standard_name s /\ length (labels s) = 1%nat) /\
  (exists s, stationname_valid s = false /\ standard_name s /\ length (labels s) = 4%nat).
Proof.
  assert (Dg : forall l, Forall is_digit l -> forallb isdigit l = true).
  { intros l. rewrite forallb_forall, Forall_forall. intros H x Hx; apply isdigit_spec, H, Hx. }
  repeat split.
  - exists [97; 46; 46; 98]. split; [reflexivity|]. split; [discriminate|]. cbn. auto.
  - exists ([112; 111; 114; 116; 45; 48; 48; 49; 46; 97]).
    split; [reflexivity|]. split; [discriminate|]. cbn [labels Z.eqb hd Pos.eqb].
    exists [48; 48; 49]. split; [repeat constructor; discriminate|]. split; [reflexivity|].
    left; reflexivity.
  - exists [112; 111; 114; 116; 45; 49; 45; 49]. split; [reflexivity|].
    cbn [labels Z.eqb hd Pos.eqb]. split; [|reflexivity].
    split; [cbn; lia|]. cbn [labels Z.eqb hd Pos.eqb]. split; [|split].
    + labels.
    + intros (d & Fd & Ld & [E|(e & Fe & Le & E)]).
      * destruct d as [|a [|b [|c [|]]]]; try discriminate. inversion E; subst.
        apply Dg in Fd. cbn in Fd. discriminate.
      * apply (f_equal (@length Z)) in E. rewrite !app_length in E. cbn in E. lia.
    + intros [E _]. discriminate.
  - exists [49; 48; 48; 48; 46; 49; 46; 49; 46; 49]. split; [reflexivity|].
    split; [|reflexivity]. split; [cbn; lia|]. cbn [labels Z.eqb hd Pos.eqb].
    split; [|split].
    + labels.
    + intros (d & Fd & Ld & [E|(e & Fe & Le & E)]); discriminate.
    + intros [_ F]. inversion F as [|? ? [L _]]; subst. cbn in L. lia.
Qed.

Example C62_example : standard_name [97; 45; 98; 46; 99; 49].
Proof.
  split; [cbn; lia|]. cbn [labels Z.eqb hd Pos.eqb]. split; [|split].
  - labels.
  - intros (d & Fd & Ld & [E|(e & Fe & Le & E)]); discriminate.
  - intros [E _]. discriminate.
Qed.

(** ** C63: IP suites *)

(** A suite is accepted exactly if the mask is a network mask with j host bits,
    address and mask are both zero or the address is neither the first nor the last
    of its network and its first octet is in 1..126 or 128..223, and the gateway is
    zero or in the same network. *)
Theorem C63_suite : forall s,
  0 <= ip_addr s < 4294967296 -> 0 <= ip_mask s < 4294967296 -> 0 <= ip_gateway s < 4294967296 ->
  (ipsuite_valid s = true <->
   exists j, 0 <= j <= 32 /\ ip_mask s = 4294967296 - 2 ^ j /\
     ((ip_addr s = 0 /\ ip_mask s = 0) \/
      (ip_addr s mod 2 ^ j <> 0 /\ ip_addr s mod 2 ^ j <> 2 ^ j - 1 /\
       (1 <= ip_addr s / 16777216 <= 126 \/ 128 <= ip_addr s / 16777216 <= 223))) /\
     (ip_gateway s = 0 \/ ip_gateway s / 2 ^ j = ip_addr s / 2 ^ j)).
Proof.
  intros [ip m gw]. cbn [ip_addr ip_mask ip_gateway]. intros Hi Hm Hg.
  unfold ipsuite_valid. cbn [ip_addr ip_mask ip_gateway].
  assert (G : forall j, 0 <= j <= 32 -> m = mask_bits j ->
    (gateway_valid ip m gw = true <-> gw = 0 \/ gw / 2 ^ j = ip / 2 ^ j)).
  { intros j Hj ->. unfold gateway_valid. pose proof (pow_pos j Hj).
    rewrite !net_part by assumption.
    destruct (Z.eqb_spec gw 0); cbn; [tauto|].
    destruct (Z.eqb_spec (2 ^ j * (ip / 2 ^ j)) (2 ^ j * (gw / 2 ^ j))) as [E|E]; cbn.
    - apply Z.mul_reg_l in E; [|lia]. split; auto.
    - split; [discriminate|]. intros [A|A]; [congruence|]. exfalso. apply E. now rewrite A. }
  assert (A : forall j, 0 <= j <= 32 -> m = mask_bits j ->
    (ipaddress_valid m ip = true <->
     (ip = 0 /\ m = 0) \/ (ip mod 2 ^ j <> 0 /\ ip mod 2 ^ j <> 2 ^ j - 1 /\
       (1 <= ip / 16777216 <= 126 \/ 128 <= ip / 16777216 <= 223)))).
  { intros j Hj Em. unfold ipaddress_valid.
    assert (Nv : netmask_valid m = true) by (apply netmask_spec; eauto). rewrite Nv. cbn [negb].
    rewrite Em, host_part, not_mask by assumption. rewrite <- Em.
    pose proof (Z.div_mod ip 16777216 ltac:(lia)) as DM.
    pose proof (Z.mod_pos_bound ip 16777216 ltac:(lia)) as MB.
    destruct (Z.eqb_spec m 0) as [E0|E0], (Z.eqb_spec ip 0) as [E1|E1]; cbn [andb];
      [tauto| | |];
      (destruct (Z.eqb_spec (ip mod 2 ^ j) 0) as [E2|E2]; cbn [orb]; [intuition congruence|]);
      (destruct (Z.eqb_spec (ip mod 2 ^ j) (2 ^ j - 1)) as [E3|E3]; [intuition congruence|]);
      (destruct (Z.leb_spec ip 16777215); [intuition (try discriminate; lia)|]);
      destruct (Z.leb_spec 2130706432 ip), (Z.leb_spec ip 2147483647); cbn [andb];
      try (intuition (try discriminate; lia));
      destruct (Z.leb_spec 3758096384 ip), (Z.leb_spec ip 4026531839); cbn [andb];
      try (intuition (try discriminate; lia));
      destruct (Z.leb_spec 4026531840 ip), (Z.leb_spec ip 4294967295); cbn [andb];
      intuition (try discriminate; lia). }
  rewrite !andb_true_iff, netmask_spec by assumption. split.
  - intros [[(j & Hj & Em) B] C]. exists j. split; [assumption|]. split; [exact Em|].
    split; [now apply A|now apply G].
  - intros (j & Hj & Em & B & C). change (4294967296 - 2 ^ j) with (mask_bits j) in Em.
    split; [split; [eauto|now apply (A j)]|now apply (G j)].
Qed.

Example C63_example : ipsuite_valid (mkSuite 3232235786 4294967040 3232235777) = true.
Proof. reflexivity. Qed.

(** ** C67: only valid settings *)

(** Device started with a valid configuration and a valid file or none, then any
    events: the name and the suite that are reported and those that are stored are
    valid, and the name is terminated within its array. *)
Theorem C67_valid_settings : forall k room f es, good_cfg k ->
  match f with Some f => good_name (a_name f) /\ ipsuite_valid (a_suite f) = true | None => True end ->
  Forall quals_ok es ->
  let s := crun k es (cinit k room f) in
  (good_name (a_name (cur s)) /\ ipsuite_valid (a_suite (cur s)) = true) /\
  match file s with Some f => good_name (a_name f) /\ ipsuite_valid (a_suite f) = true | None => True end.
Proof.
  intros k room f es K F Q s. destruct (init_good k room f K F) as (G & _).
  destruct (run_good k es _ K G Q) as [(G1 & G2 & G3) _]. fold s in G1, G2, G3. auto.
Qed.

(** ** C66: what survives a power cycle *)

(** At every point of every history, a power cycle gives the settings that the
    specification [keep_run] has: the ones of the last time the settings were saved,
    in which temporary values are empty and permanent ones are as requested; those
    of the configuration if they were never saved; empty after a reset. *)
Theorem C66_persistence : forall k room room' f es, good_cfg k ->
  match f with Some f => good_name (a_name f) /\ ipsuite_valid (a_suite f) = true | None => True end ->
  Forall quals_ok es ->
  let from := power_up k (option_map (fun a => (cstr (a_name a), a_suite a)) f) in
  let kept := keep_run k es (mkStore (fst from) (snd from) (option_map (fun a => (cstr (a_name a), a_suite a)) f)) in
  let s := crun k (es ++ [NRestart room']) (cinit k room f) in
  (cstr (a_name (cur s)), a_suite (cur s)) = power_up k (saved kept).
Proof.
  intros k room room' f es K F Q from kept s.
  destruct (init_good k room f K F) as (G & I2 & I3 & I4).
  destruct (run_good k es _ K G Q) as [G1 A1].
  assert (E : mkStore (fst from) (snd from) (option_map of_ase f) = abs (cinit k room f)).
  { unfold abs. rewrite I3, I4. fold (of_ase (cur (cinit k room f))).
    change from with (power_up k (option_map of_ase f)). rewrite <- I2. reflexivity. }
  assert (R : forall es1 es2 t, crun k (es1 ++ es2) t = crun k es2 (crun k es1 t)).
  { induction es1; intros; cbn; auto. }
  unfold s. rewrite R. cbn [crun cstep cur].
  destruct (init_good k room' (file (crun k es (cinit k room f))) K ltac:(apply G1)) as (_ & J2 & _).
  change (cstr (a_name (cur (cinit k room' (file (crun k es (cinit k room f)))))),
          a_suite (cur (cinit k room' (file (crun k es (cinit k room f))))))
    with (of_ase (cur (cinit k room' (file (crun k es (cinit k room f)))))).
  rewrite J2. f_equal.
  change (option_map of_ase (file (crun k es (cinit k room f)))) with (saved (abs (crun k es (cinit k room f)))).
  rewrite A1, <- E. reflexivity.
Qed.

Lemma keep_quiet : forall k es st, Forall (fun e => match e with NHello _ | NConns _ => True | _ => False end) es ->
  keep_run k es st = st.
Proof.
  intros k es. induction es as [|e es IH]; intros st F; [reflexivity|]. inversion F; subst.
  unfold keep_run in *. cbn [fold_left]. destruct e; try contradiction; cbn [keep_event]; auto.
Qed.

(** In particular: a permanent name that was accepted, followed by a save, is there
    after a power cycle; a temporary one is not. *)
Theorem C66_name : forall k room room' f es es' v q, good_cfg k ->
  match f with Some f => good_name (a_name f) /\ ipsuite_valid (a_suite f) = true | None => True end ->
  Forall quals_ok es -> 0 <= q -> stationname_valid v = true ->
  Forall (fun e => match e with NHello _ | NConns _ => True | _ => False end) es' ->
  let s := crun k (es ++ [NSet [(RqName v, q)]; NSave] ++ es' ++ [NRestart room']) (cinit k room f) in
  cstr (a_name (cur s)) = if Z.odd q then v else [].
Proof.
  intros k room room' f es es' v q K F Q Hq V F' s.
  pose proof (C66_persistence k room room' f (es ++ [NSet [(RqName v, q)]; NSave] ++ es') K F) as P.
  cbv zeta in P. rewrite <- !app_assoc in P. unfold s.
  specialize (P ltac:(apply Forall_app; split; [assumption|]; apply Forall_app; split;
    [repeat constructor; assumption|eapply Forall_impl; [|eassumption]; intros []; cbn; tauto])).
  apply (f_equal fst) in P. cbn [fst] in P. cbn [app] in P |- *. rewrite P.
  unfold keep_run. rewrite fold_left_app. cbn [fold_left]. change (fold_left _ es' ?x) with (keep_run k es' x).
  rewrite keep_quiet by assumption. cbn [keep_event saved power_up kept_name fold_left keep_block fst].
  rewrite V. reflexivity.
Qed.

Theorem C66_suite : forall k room room' f es es' v q, good_cfg k ->
  match f with Some f => good_name (a_name f) /\ ipsuite_valid (a_suite f) = true | None => True end ->
  Forall quals_ok es -> 0 <= q -> ipsuite_valid v = true ->
  Forall (fun e => match e with NHello _ | NConns _ => True | _ => False end) es' ->
  let s := crun k (es ++ [NSet [(RqSuite v, q)]; NSave] ++ es' ++ [NRestart room']) (cinit k room f) in
  a_suite (cur s) = if Z.odd q then v else suite0.
Proof.
  intros k room room' f es es' v q K F Q Hq V F' s.
  pose proof (C66_persistence k room room' f (es ++ [NSet [(RqSuite v, q)]; NSave] ++ es') K F) as P.
  cbv zeta in P. rewrite <- !app_assoc in P. unfold s.
  specialize (P ltac:(apply Forall_app; split; [assumption|]; apply Forall_app; split;
    [repeat constructor; assumption|eapply Forall_impl; [|eassumption]; intros []; cbn; tauto])).
  apply (f_equal snd) in P. cbn [snd] in P. cbn [app] in P |- *. rewrite P.
  unfold keep_run. rewrite fold_left_app. cbn [fold_left]. change (fold_left _ es' ?x) with (keep_run k es' x).
  rewrite keep_quiet by assumption. cbn [keep_event saved power_up kept_suite fold_left keep_block fst snd].
  rewrite V. reflexivity.
Qed.

(** ** C64: a refused setting changes nothing *)

(** While no connection is active: if a block of a Set request is refused, the
    settings, the stored settings, the interface and the connections are as before.
    (Only the sending of HELLO messages ends.)  Missing: active connections, see
    C64_refuted. *)
Theorem C64_refused_partial : forall k r q s e t, conns s = 0%nat -> cs s <> Setup ->
  set_ind k r q s = (false, e, t) ->
  e = Some 3 /\ t = with_hello (hellos s) false s.
Proof.
  intros k r q s e t C S H. unfold set_ind in H.
  set (s1 := with_hello (hellos s) false s) in *.
  assert (C1 : conns s1 = 0%nat) by exact C.
  assert (S1 : cs s1 <> Setup) by exact S. clearbody s1.
  assert (A : forall ci cn s', conns s' = 0%nat -> cs s' <> Setup -> fst (set_apply ci cn None s') = true).
  { intros ci cn [cu n cc co he ht fi cons tr] X Y. cbn [conns cs] in X, Y. subst cons.
    unfold set_apply. cbn [cemit cur nv cs commit hellos hello_timer file conns ctr].
    destruct (have_name cu), (have_ip cu), ci, cn, cc; try congruence; reflexivity. }
  destruct r as [v|v| |]; cbn [set_parse] in H.
  - destruct (ipsuite_valid v); [|now inversion H].
    match type of H with context [set_apply ?a ?b None ?d] =>
      pose proof (A a b d C1 S1) as X; destruct (set_apply a b None d) as [ok u] end.
    cbn in X. subst ok. discriminate.
  - destruct (length v <? name_size)%nat; [|now inversion H].
    destruct (stationname_valid v); [|now inversion H].
    match type of H with context [set_apply ?a ?b None ?d] =>
      pose proof (A a b d C1 S1) as X; destruct (set_apply a b None d) as [ok u] end.
    cbn in X. subst ok. discriminate.
  - destruct (set_apply false false (Some 99) s1). discriminate.
  - destruct (set_apply false false (Some (Z.shiftr q 1)) s1). discriminate.
Qed.

Definition ex_cfg : cfg :=
  mkCfg false false (mkSuite 3232235786 4294967040 0) (97 :: repeat 0 240)
        [2; 0; 0; 0; 0; 1] [] [] [].
Lemma ex_cfg_good : good_cfg ex_cfg.
Proof.
  split; [|reflexivity]. split; [reflexivity|]. split; [right; left; reflexivity|reflexivity].
Qed.
Example C64_example : exists t,
  set_ind ex_cfg (RqSuite (mkSuite 1 2 3)) 1 (cinit ex_cfg true None) = (false, Some 3, t).
Proof. eexists. vm_compute. reflexivity. Qed.

(** With an active connection, a change of the IP suite is refused, but reported and
    stored suite are the new one afterwards. *)
Theorem C64_refuted : exists k v t,
  let s := crun k [NConns 1] (cinit k true None) in
  good_cfg k /\ set_ind k (RqSuite v) 1 s = (false, None, t) /\
  a_suite (cur s) <> v /\ a_suite (cur t) = v /\ a_suite (nv t) = v.
Proof.
  exists ex_cfg, (mkSuite 3232235787 4294967040 0).
  eexists. split; [exact ex_cfg_good|]. split; [vm_compute; reflexivity|].
  split; [vm_compute; discriminate|]. split; reflexivity.
Qed.

(** What is done is added to the trace. *)
Lemma apply_ctr : forall ci cn r u, exists p, ctr (snd (set_apply ci cn r u)) = p ++ ctr u /\ In CJob p.
Proof.
  intros ci cn rs [cu n cc co he ht fi cons tr]. unfold set_apply.
  cbn [cemit cur nv cs commit hellos hello_timer file conns ctr].
  destruct (have_name cu), (have_ip cu), ci, cn, rs, cc; try (destruct cons);
    cbv [negb orb andb cs with_cs with_commit cemit abort_ars conns fst snd with_conns Nat.eqb
         cur nv file ctr hellos hello_timer];
    first [ exists [CJob]; split; [reflexivity|left; reflexivity]
          | eexists [_; CJob]; split; [reflexivity|right; left; reflexivity] ].
Qed.

Lemma default_ctr : forall k m t, exists p, ctr (set_default_cfg k m t) = p ++ ctr t /\ In CJob p.
Proof.
  intros k m t. unfold set_default_cfg.
  destruct (m =? 0), (file t), ((m =? 1) || (3 <=? m)), ((m =? 2) || (3 <=? m)), (0 <? m);
    cbn [cemit with_nv with_cur with_file ctr];
    first [ exists [CJob]; split; [reflexivity|left; reflexivity]
          | eexists [CJob; _]; split; [reflexivity|left; reflexivity]
          | eexists [CJob; _; _]; split; [reflexivity|left; reflexivity]
          | eexists [CJob; _; _; _]; split; [reflexivity|left; reflexivity]
          | eexists [CJob; _; _; _; _]; split; [reflexivity|left; reflexivity] ].
Qed.

Lemma parse_ctr : forall r q s, ctr (snd (set_parse r q s)) = ctr s.
Proof.
  intros r q s. unfold set_parse. destruct r as [v|v| |];
    [destruct (ipsuite_valid v)|destruct (length v <? name_size)%nat; [destruct (stationname_valid v)|]| |];
    reflexivity.
Qed.

Lemma ind_ctr : forall k r q s, exists p, ctr (snd (set_ind k r q s)) = p ++ ctr s /\
  (fst (fst (set_ind k r q s)) = true -> In CJob p).
Proof.
  intros k r q s. unfold set_ind. set (s1 := with_hello (hellos s) false s).
  assert (E : ctr s1 = ctr s) by reflexivity. clearbody s1. rewrite <- E. clear s E.
  pose proof (parse_ctr r q s1) as P.
  destruct (set_parse r q s1) as [[[[[ok e] ci] cn] rs] u]. cbn [snd] in P. rewrite <- P. clear P s1.
  destruct ok; [|exists []; split; [reflexivity|discriminate]].
  destruct (apply_ctr ci cn rs u) as (p & A & Ij). destruct (set_apply ci cn rs u) as [ok t]. cbn [snd] in A.
  destruct rs as [m|]; cbn [snd fst]; [|eauto].
  destruct (default_ctr k m t) as (p' & D & Id). rewrite D, A. exists (p' ++ p).
  split; [now rewrite app_assoc|]. intros _. apply in_or_app. auto.
Qed.

(** ** C65: an accepted setting takes effect *)

(** A name or suite that is accepted is reported from then on, the other one is not
    touched, and a job that saves the settings is started. *)
Theorem C65_reported : forall k r q s e t, good s -> 0 <= q -> set_ind k r q s = (true, e, t) ->
  match r with
  | RqName v => stationname_valid v = true /\ cstr (a_name (cur t)) = v /\ a_suite (cur t) = a_suite (cur s)
  | RqSuite v => ipsuite_valid v = true /\ a_suite (cur t) = v /\ cstr (a_name (cur t)) = cstr (a_name (cur s))
  | RqFactory | RqReset => True
  end /\ exists new, ctr t = new ++ ctr s /\ In CJob new.
Proof.
  intros k r q s e t G Q H.
  assert (C : exists new, ctr t = new ++ ctr s /\ In CJob new).
  { destruct (ind_ctr k r q s) as (p & P1 & P2). rewrite H in P1, P2. cbn in P1, P2. eauto. }
  split; [clear C|exact C]. unfold set_ind in H.
  set (s1 := with_hello (hellos s) false s) in *.
  assert (S1 : cur s1 = cur s) by reflexivity. clearbody s1.
  destruct r as [v|v| |]; cbn [set_parse] in H; auto.
  - destruct (ipsuite_valid v); [|discriminate].
    match type of H with context [set_apply ?a ?b ?c ?d] =>
      destruct (apply_same a b c d) as (P & _); destruct (set_apply a b c d) as [ok u] end.
    inversion H; subst. cbn [snd] in *. rewrite P.
    cbn [with_cur with_nv cur a_suite a_name]. rewrite S1. auto.
  - destruct (length v <? name_size)%nat; [|discriminate].
    destruct (stationname_valid v) eqn:V; [|discriminate].
    match type of H with context [set_apply ?a ?b ?c ?d] =>
      destruct (apply_same a b c d) as (P & _); destruct (set_apply a b c d) as [ok u] end.
    inversion H; subst. cbn [snd] in *. rewrite P.
    cbn [with_cur with_nv cur a_suite a_name]. rewrite S1.
    destruct (put_good v (a_name (cur s)) V ltac:(apply G)) as [_ U]. auto.
Qed.

(** Histories without connections, with names that are not empty and without resets
    and power cycles. *)
Definition calm (e : cinput) : Prop :=
  match e with
  | NSet l => Forall (fun b => 0 <= snd b /\
                        match fst b with RqSuite _ => True | RqName v => v <> [] | _ => False end) l
  | NHello _ | NSave => True
  | NConns n => n = 0%nat
  | NRestart _ => False
  end.

(** The invariant of such histories. *)
Definition J (s : cst) : Prop :=
  conns s = 0%nat /\ good s /\ have_name (cur s) = true /\
  (cs s = SetIp /\ have_ip (cur s) = false \/ cs s = WConnect /\ have_ip (cur s) = true) /\
  (commit s = true \/ interface (ctr s) = Some (a_suite (cur s))).

Lemma have_name_iff : forall a, have_name a = true <-> cstr (a_name a) <> [].
Proof.
  intros a. unfold have_name. destruct (cstr (a_name a)); cbn; split; congruence.
Qed.

Lemma suite_eqb_spec : forall a b, suite_eqb a b = true <-> a = b.
Proof.
  intros [a b c] [d e f]. unfold suite_eqb. cbn. rewrite !andb_true_iff, !Z.eqb_eq.
  split; [intros [[-> ->] ->]; reflexivity|intros H; inversion H; auto].
Qed.

Lemma apply_J : forall ci cn s, conns s = 0%nat -> have_name (cur s) = true ->
  (cs s = SetIp \/ cs s = WConnect) ->
  (ci = false -> cs s = SetIp /\ have_ip (cur s) = false \/ cs s = WConnect /\ have_ip (cur s) = true) ->
  (commit s = true \/ ci = true \/ interface (ctr s) = Some (a_suite (cur s))) ->
  (ci = true -> cs s = SetIp -> have_ip (cur s) = true) ->
  let t := snd (set_apply ci cn None s) in
  conns t = 0%nat /\
  (cs t = SetIp /\ have_ip (cur t) = false \/ cs t = WConnect /\ have_ip (cur t) = true) /\
  (commit t = true \/ interface (ctr t) = Some (a_suite (cur t))).
Proof.
  intros ci cn [cu n cc co he ht fi cons tr] C N S A B D.
  cbn [conns cur cs commit ctr] in C, N, S, A, B, D. subst cons.
  unfold set_apply. cbn [cemit cur nv cs commit hellos hello_timer file conns ctr]. rewrite N.
  destruct S as [->| ->]; destruct (have_ip cu) eqn:Ei; destruct ci, cn;
    try (specialize (A eq_refl)); try (specialize (D eq_refl eq_refl));
    try discriminate; try (destruct A as [[]|[]]; discriminate);
    cbn [negb orb andb cs with_cs with_commit cemit abort_ars conns fst snd with_conns Nat.eqb
           cur nv file ctr commit interface]; rewrite ?Ei; intuition (try congruence; try discriminate).
Qed.

Lemma suite_ip0 : forall a b, have_ip (mkAse a b) = false -> b = suite0.
Proof.
  intros a [x y z] H. unfold have_ip in H. cbn in H.
  apply orb_false_iff in H as [H H3]. apply orb_false_iff in H as [H1 H2].
  rewrite negb_false_iff, Z.eqb_eq in *. now subst.
Qed.

Lemma ind_J : forall k r q s, good_cfg k -> J s -> 0 <= q ->
  match r with RqSuite _ => True | RqName v => v <> [] | _ => False end ->
  J (snd (set_ind k r q s)).
Proof.
  intros k r q s K (C & G & N & S & B) Q R.
  destruct (ind_good k r q s K G Q) as [G' _].
  revert G'. unfold set_ind.
  set (s1 := with_hello (hellos s) false s).
  assert (E : cur s1 = cur s /\ nv s1 = nv s /\ file s1 = file s /\ conns s1 = conns s /\ cs s1 = cs s
    /\ commit s1 = commit s /\ ctr s1 = ctr s) by auto 10.
  clearbody s1. destruct E as (E1 & E2 & E3 & E4 & E5 & E6 & E7).
  assert (J1 : good s1 -> J s1).
  { intros G1. unfold J. rewrite E1, E4, E5, E6, E7. auto. }
  destruct r as [v|v| |]; try contradiction; cbn [set_parse].
  - destruct (ipsuite_valid v) eqn:V; [|exact J1].
    match goal with |- context [set_apply ?a ?b ?c ?d] =>
      destruct (apply_same a b c d) as (P1 & P2 & P3); pose proof (apply_J a b d) as AJ;
      destruct (set_apply a b c d) as [ok t] end.
    cbn [snd] in *. cbn [cur nv file with_cur with_nv a_name a_suite cs conns commit ctr] in *.
    rewrite E1, E4, E5, E6, E7 in AJ. cbn [cur nv file with_cur with_nv a_name a_suite cs conns commit ctr] in *.
    intros G'. destruct AJ as (A1 & A2 & A3); auto.
    + tauto.
    + intros X. apply negb_false_iff, suite_eqb_spec in X. subst v. exact S.
    + destruct (suite_eqb (a_suite (cur s)) v) eqn:X; [|cbn; tauto].
      apply suite_eqb_spec in X. subst v. tauto.
    + intros X Y. destruct (have_ip (mkAse (a_name (cur s)) v)) eqn:Z; [reflexivity|].
      apply suite_ip0 in Z. subst v. destruct S as [[_ S]|[S _]]; [|congruence].
      destruct (cur s) as [cn csu]. apply suite_ip0 in S. subst csu. discriminate.
    + repeat (split; [assumption|]). split; [|split; assumption].
      rewrite P1, E1. exact N.
  - destruct (length v <? name_size)%nat; [|exact J1].
    destruct (stationname_valid v) eqn:V; [|exact J1].
    match goal with |- context [set_apply ?a ?b ?c ?d] =>
      destruct (apply_same a b c d) as (P1 & P2 & P3); pose proof (apply_J a b d) as AJ;
      destruct (set_apply a b c d) as [ok t] end.
    cbn [snd] in *. cbn [cur nv file with_cur with_nv a_name a_suite cs conns commit ctr] in *.
    rewrite E1, E4, E5, E6, E7 in AJ. cbn [cur nv file with_cur with_nv a_name a_suite cs conns commit ctr] in *.
    destruct (put_good v (a_name (cur s)) V ltac:(apply G)) as [_ U].
    assert (HN : have_name (mkAse (put_name v (a_name (cur s))) (a_suite (cur s))) = true).
    { apply have_name_iff. cbn [a_name]. now rewrite U. }
    intros G'. destruct AJ as (A1 & A2 & A3); auto.
    + tauto.
    + tauto.
    + discriminate.
    + repeat (split; [assumption|]). split; [|split; assumption].
      rewrite P1, E1. exact HN.
Qed.

Lemma commit_J : forall s, J s -> J (set_commit s) /\
  interface (ctr (set_commit s)) = Some (a_suite (cur (set_commit s))).
Proof.
  intros s (C & G & N & S & B). unfold set_commit. destruct (commit s) eqn:E; cbn [negb].
  - split; [|reflexivity]. split; [assumption|]. split; [assumption|]. split; [assumption|].
    split; [assumption|right; reflexivity].
  - destruct B as [B|B]; [discriminate|]. split; [|assumption].
    repeat (split; [assumption|]). right; assumption.
Qed.

Lemma step_J : forall k e s, good_cfg k -> calm e ->
  J s /\ interface (ctr s) = Some (a_suite (cur s)) ->
  J (cstep k e s) /\ interface (ctr (cstep k e s)) = Some (a_suite (cur (cstep k e s))).
Proof.
  intros k e s K F [H HI]. destruct e as [l|room| |n|room]; cbn [cstep calm] in *.
  - apply commit_J. clear HI. revert s H. induction l as [|[r q] l IH]; intros s H; [exact H|].
    inversion F as [|x y [Q R] F']; subst. cbn [fst snd set_blocks] in *. apply IH; [assumption|].
    now apply ind_J.
  - destruct (hello_timer s); [|auto]. unfold send_hello.
    destruct H as (C & G & N & S & B).
    destruct (cs s) eqn:Ec, (hellos s) eqn:Eh; cbn; unfold J; cbn; rewrite ?Ec; auto 10.
  - destruct H as (C & (G1 & G2 & G3) & N & S & B). split; [|exact HI].
    split; [exact C|]. split; [|auto]. split; [assumption|]. split; assumption.
  - subst n. destruct H as (C & G & N & S & B). split; [|exact HI]. split; [reflexivity|]. auto.
  - contradiction.
Qed.

(** In such histories, after every event the network interface has the suite that
    the device reports.  Missing: active connections, empty names, resets and
    restarts without a name, see C65_refuted. *)
Theorem C65_interface_partial : forall k room f es, good_cfg k -> k_dhcp k = false ->
  match f with Some f => good_name (a_name f) /\ ipsuite_valid (a_suite f) = true | None => True end ->
  cstr (a_name (cur (cinit k room f))) <> [] -> Forall calm es ->
  let s := crun k es (cinit k room f) in
  interface (ctr s) = Some (a_suite (cur s)).
Proof.
  intros k room f es K D F N C s.
  assert (G0 : J (cinit k room f) /\
               interface (ctr (cinit k room f)) = Some (a_suite (cur (cinit k room f)))).
  { destruct (init_good k room f K F) as (G & _).
    apply have_name_iff in N. revert G N. unfold cinit. rewrite D.
    set (s1 := set_default_cfg k 0 _).
    assert (E : conns s1 = 0%nat) by (unfold s1, set_default_cfg; destruct f; reflexivity).
    clearbody s1. destruct (have_name (cur s1)) eqn:En; cbn [negb].
    - destruct (have_ip (cur s1)) eqn:Ei; cbn [negb].
      + destruct (k_hello k); cbn; intros G N; unfold J; cbn; rewrite E, Ei; auto 10.
      + cbn. intros G N. unfold J; cbn; rewrite E, Ei; auto 10.
    - cbn. intros G N. congruence. }
  unfold s. clear s N F D. revert G0. generalize (cinit k room f). induction C as [|e es Ce C IH]; intros s H.
  - apply H.
  - cbn [crun]. apply IH. now apply step_J.
Qed.

(** The interface is told to keep the suite for the next power cycle exactly if the
    reported settings are those that are stored. *)
Theorem C65_permanent : forall s, commit s = true -> exists permanent,
  ctr (set_commit s) = CSetIp (a_suite (cur s)) (cstr (a_name (cur s))) permanent :: ctr s /\
  (permanent = true <-> a_suite (cur s) = a_suite (nv s) /\ cstr (a_name (cur s)) = cstr (a_name (nv s))).
Proof.
  intros s C. unfold set_commit. rewrite C. cbn [negb]. eexists. split; [reflexivity|]. rewrite andb_true_iff, list_eqb_spec, suite_eqb_spec. reflexivity.
Qed.

Example C65_permanent_example : exists s, commit s = true /\ a_suite (cur s) <> a_suite (nv s) /\
  s = set_blocks ex_cfg [(RqName [98], 1); (RqSuite (mkSuite 3232235787 4294967040 0), 0)] (cinit ex_cfg true None).
Proof. eexists. split; [|split; [|reflexivity]]; [reflexivity|vm_compute; discriminate]. Qed.

Example C65_example :
  let s := crun ex_cfg [NSet [(RqName [98], 1); (RqSuite (mkSuite 3232235787 4294967040 0), 0)]]
                (cinit ex_cfg true None) in
  interface (ctr s) = Some (mkSuite 3232235787 4294967040 0) /\ cstr (a_name (cur s)) = [98].
Proof. vm_compute. auto. Qed.

(** The interface does not get the accepted suite when the suite is cleared while a
    connection is active, nor when it is set after a reset to factory settings. *)
Theorem C65_refuted : exists k v,
  let s := crun k [NConns 1] (cinit k true None) in
  good_cfg k /\
  (exists s1 e1, set_ind k (RqSuite suite0) 1 s = (true, e1, s1) /\
     let t := set_commit s1 in a_suite (cur t) = suite0 /\ interface (ctr t) <> Some suite0) /\
  (exists s1 s2 e1 e2,
     set_ind k RqFactory 1 s = (true, e1, s1) /\ set_ind k (RqSuite v) 1 (set_commit s1) = (true, e2, s2) /\
     let t := set_commit s2 in
     conns t = 0%nat /\ a_suite (cur t) = v /\ interface (ctr t) <> Some v).
Proof.
  exists ex_cfg, (mkSuite 3232235787 4294967040 0).
  split; [exact ex_cfg_good|]. split.
  - do 2 eexists. split; [vm_compute; reflexivity|]. split; [reflexivity|]. vm_compute. discriminate.
  - do 4 eexists. split; [vm_compute; reflexivity|]. split; [vm_compute; reflexivity|].
    split; [reflexivity|]. split; [reflexivity|]. vm_compute. discriminate.
Qed.

(** ** C68: HELLO messages *)

Definition hellos_sent (l : list cobs) : nat := length (filter is_hello l).

Lemma default_hello : forall k m s, hellos_sent (ctr (set_default_cfg k m s)) = hellos_sent (ctr s) /\
  hellos (set_default_cfg k m s) = hellos s /\ hello_timer (set_default_cfg k m s) = hello_timer s /\
  (forall o, In o (ctr (set_default_cfg k m s)) -> is_hello o = true -> In o (ctr s)).
Proof.
  intros k m s. unfold set_default_cfg.
  destruct (m =? 0), (file s), ((m =? 1) || (3 <=? m)), ((m =? 2) || (3 <=? m)), (0 <? m);
    cbn [cemit with_nv with_cur with_file ctr hellos hello_timer nv cur]; unfold hellos_sent;
    cbn [filter is_hello]; (split; [reflexivity|]; split; [reflexivity|]; split; [reflexivity|]);
    cbn [In]; intros o H X; repeat (destruct H as [H|H]; [subst o; discriminate|]); exact H.
Qed.

Lemma apply_hello : forall ci cn r s, hellos_sent (ctr (snd (set_apply ci cn r s))) = hellos_sent (ctr s) /\
  hellos (snd (set_apply ci cn r s)) = hellos s /\ hello_timer (snd (set_apply ci cn r s)) = hello_timer s /\
  (forall o, In o (ctr (snd (set_apply ci cn r s))) -> is_hello o = true -> In o (ctr s)).
Proof.
  intros ci cn r [cu n cc co he ht fi cons tr]. unfold set_apply.
  cbn [cemit cur nv cs commit hellos hello_timer file conns ctr].
  destruct (have_name cu), (have_ip cu), ci, cn, r, cc; try (destruct cons);
    cbv [negb orb andb cs with_cs with_commit cemit abort_ars conns fst snd with_conns Nat.eqb
           cur nv file ctr hellos hello_timer]; unfold hellos_sent; cbn [filter is_hello];
    (split; [reflexivity|]; split; [reflexivity|]; split; [reflexivity|]);
    cbn [In]; intros o H X; repeat (destruct H as [H|H]; [subst o; discriminate|]); exact H.
Qed.

Lemma ind_hello : forall k r q s, hellos_sent (ctr (snd (set_ind k r q s))) = hellos_sent (ctr s) /\
  hellos (snd (set_ind k r q s)) = hellos s /\ hello_timer (snd (set_ind k r q s)) = false /\
  (forall o, In o (ctr (snd (set_ind k r q s))) -> is_hello o = true -> In o (ctr s)).
Proof.
  intros k r q s. unfold set_ind.
  set (s1 := with_hello (hellos s) false s).
  assert (E : ctr s1 = ctr s /\ hellos s1 = hellos s /\ hello_timer s1 = false) by auto.
  clearbody s1. destruct E as (E1 & E2 & E3). rewrite <- E1, <- E2, <- E3.
  assert (P : forall ok e ci cn rs u, set_parse r q s1 = (ok, e, ci, cn, rs, u) ->
    ctr u = ctr s1 /\ hellos u = hellos s1 /\ hello_timer u = hello_timer s1).
  { intros ok e ci cn rs u. unfold set_parse. destruct r as [v|v| |];
      [destruct (ipsuite_valid v)|destruct (length v <? name_size)%nat; [destruct (stationname_valid v)|]| |];
      intros H; inversion H; subst; cbn; auto. }
  destruct (set_parse r q s1) as [[[[[ok e] ci] cn] rs] u].
  destruct (P _ _ _ _ _ _ eq_refl) as (P1 & P2 & P3). rewrite <- P1, <- P2, <- P3.
  destruct ok; [|cbn [snd]; auto].
  destruct (apply_hello ci cn rs u) as (A1 & A2 & A3 & A4).
  destruct (set_apply ci cn rs u) as [ok t]. cbn [snd] in *. rewrite <- A1, <- A2, <- A3.
  destruct rs as [m|]; cbn [snd]; [|auto].
  destruct (default_hello k m t) as (D1 & D2 & D3 & D4). auto 10.
Qed.

(** The device as it is when the sending of HELLO messages is started. *)
Definition HI (k : cfg) (s : cst) : Prop :=
  (hellos_sent (ctr s) + hellos s <= 3)%nat /\
  (hello_timer s = true -> cs s = WConnect /\ have_name (cur s) = true /\ have_ip (cur s) = true) /\
  (k_hello k = false -> hello_timer s = false) /\
  (forall n v, In (CHello n v) (ctr s) -> k_hello k = true /\ n <> [] /\ v <> suite0).

Lemma blocks_hello : forall k l s, hellos_sent (ctr (set_blocks k l s)) = hellos_sent (ctr s) /\
  hellos (set_blocks k l s) = hellos s /\
  hello_timer (set_blocks k l s) = match l with [] => hello_timer s | _ => false end /\
  (forall o, In o (ctr (set_blocks k l s)) -> is_hello o = true -> In o (ctr s)).
Proof.
  intros k l. induction l as [|[r q] l IH]; intros s; cbn [set_blocks]; [auto|].
  destruct (ind_hello k r q s) as (A1 & A2 & A3 & A4).
  destruct (IH (snd (set_ind k r q s))) as (B1 & B2 & B3 & B4).
  rewrite B1, A1, B2, A2. split; [reflexivity|]. split; [reflexivity|]. split; [|auto].
  rewrite B3, A3. now destruct l.
Qed.

Lemma commit_hello : forall s, hellos_sent (ctr (set_commit s)) = hellos_sent (ctr s) /\
  hellos (set_commit s) = hellos s /\ hello_timer (set_commit s) = hello_timer s /\
  cs (set_commit s) = cs s /\
  (forall o, In o (ctr (set_commit s)) -> is_hello o = true -> In o (ctr s)).
Proof.
  intros s. unfold set_commit. destruct (commit s); cbn; [|auto 10].
  repeat (split; [reflexivity|]). intros o [<-|H]; [discriminate|auto].
Qed.

Lemma step_HI : forall k e s, match e with NRestart _ => False | _ => True end -> HI k s -> HI k (cstep k e s).
Proof.
  intros k e s NR (H1 & H2 & H3 & H4). destruct e as [l|room| |n|room]; cbn [cstep]; try contradiction.
  - destruct (commit_hello (set_blocks k l s)) as (C1 & C2 & C3 & C4 & C5).
    destruct (blocks_hello k l s) as (B1 & B2 & B3 & B4). unfold HI.
    rewrite C1, C2, C3, C4, B1, B2, B3. split; [assumption|]. split; [|split].
    + destruct l as [|[r q] l]; [|discriminate].
      intros T. cbn [set_blocks]. destruct (commit_same s) as (-> & _). auto.
    + destruct l; auto.
    + intros n v I. apply H4. apply B4; [apply C5; auto|reflexivity].
  - destruct (hello_timer s) eqn:T; [|unfold HI; rewrite T; auto].
    destruct (H2 eq_refl) as (W & N & P). unfold send_hello. rewrite W.
    destruct (hellos s) as [|h] eqn:E; unfold HI; cbn.
    + split; [unfold hellos_sent in H1; lia|]. split; [discriminate|]. auto.
    + split; [unfold hellos_sent in *; cbn; lia|]. split; [auto|]. split.
      * intros X. specialize (H3 X). congruence.
      * intros n v [X|X]; [|eauto]. inversion X; subst. split; [|split].
        -- destruct (k_hello k); [reflexivity|]. specialize (H3 eq_refl); discriminate.
        -- now apply have_name_iff.
        -- intros Z. unfold have_ip in P. rewrite Z in P. discriminate.
  - unfold HI, save_ase. cbn. auto.
  - unfold HI. cbn. auto.
Qed.

Lemma init_HI : forall k room f, HI k (cinit k room f).
Proof.
  intros k room f. unfold cinit.
  set (s0 := mkCst ase0 ase0 Setup false 0 false f 0 []).
  destruct (default_hello k 0 s0) as (D1 & D2 & D3 & D4).
  set (s1 := set_default_cfg k 0 s0) in *. clearbody s1.
  change (hellos_sent (ctr s0)) with 0%nat in D1. cbn in D2, D3, D4.
  assert (R : forall t, ctr t = ctr s1 -> (hellos t <= 3)%nat ->
    (hello_timer t = true -> cs t = WConnect /\ have_name (cur t) = true /\ have_ip (cur t) = true) ->
    (k_hello k = false -> hello_timer t = false) -> HI k (set_commit t)).
  { intros t T1 T2 T3 T4. destruct (commit_hello t) as (C1 & C2 & C3 & C4 & C5). unfold HI.
    rewrite C1, C2, C3, C4, T1, D1. destruct (commit_same t) as (-> & _).
    split; [cbn; lia|]. split; [assumption|]. split; [assumption|].
    intros n v H. apply C5 in H; [|reflexivity]. rewrite T1 in H. apply D4 in H; [destruct H|reflexivity]. }
  destruct (have_name (cur s1)) eqn:N; cbn [negb]; [destruct (have_ip (cur s1)) eqn:P; cbn [negb]|].
  - destruct (k_hello k); apply R; cbn; rewrite ?D2, ?D3; auto; intros; try discriminate; lia.
  - destruct (k_dhcp k); apply R; cbn; rewrite ?D2, ?D3; auto; intros; try discriminate; lia.
  - destruct (k_dhcp k); apply R; cbn; rewrite ?D2, ?D3; auto; intros; try discriminate; lia.
Qed.

(** Between two power cycles at most three HELLO messages are sent, none if they are
    not configured, and each has a name and an IP suite. *)
Theorem C68_at_most_three : forall k room f es, no_restart es ->
  let s := crun k es (cinit k room f) in
  (length (filter is_hello (ctr s)) <= 3)%nat /\
  (forall n v, In (CHello n v) (ctr s) -> k_hello k = true /\ n <> [] /\ v <> suite0).
Proof.
  intros k room f es NR s.
  assert (H : HI k s).
  { unfold s. clear s. pose proof (init_HI k room f) as H. revert H. generalize (cinit k room f).
    induction NR as [|e es E NR IH]; intros s H; cbn [crun]; [assumption|]. apply IH. now apply step_HI. }
  destruct H as (H1 & _ & _ & H4). split; [unfold hellos_sent in H1; lia|assumption].
Qed.

(** After a Set request with at least one block none is sent until the next power
    cycle. *)
Theorem C68_silent : forall k b l es s, no_restart es ->
  filter is_hello (ctr (crun k (NSet (b :: l) :: es) s)) = filter is_hello (ctr (cstep k (NSet (b :: l)) s)) /\
  length (filter is_hello (ctr (cstep k (NSet (b :: l)) s))) = length (filter is_hello (ctr s)).
Proof.
  intros k b l es s NR. cbn [crun]. split.
  2:{ cbn [cstep]. destruct (commit_hello (set_blocks k (b :: l) s)) as (C1 & _).
      destruct (blocks_hello k (b :: l) s) as (B1 & _). unfold hellos_sent in *. congruence. }
  assert (T : hello_timer (cstep k (NSet (b :: l)) s) = false).
  { cbn [cstep]. destruct (commit_hello (set_blocks k (b :: l) s)) as (_ & _ & C3 & _).
    destruct (blocks_hello k (b :: l) s) as (_ & _ & B3 & _). congruence. }
  revert T. generalize (cstep k (NSet (b :: l)) s). clear s b l.
  assert (FI : forall k l s, filter is_hello (ctr (set_blocks k l s)) = filter is_hello (ctr s)).
  { clear. intros k l s.
    revert s. induction l as [|[r q] l IH]; intros s; cbn [set_blocks]; [reflexivity|].
    rewrite IH. destruct (ind_ctr k r q s) as (p & P & _). destruct (ind_hello k r q s) as (A1 & _).
    rewrite P in *. unfold hellos_sent in A1. rewrite filter_app in *. rewrite app_length in A1.
    destruct (filter is_hello p); [reflexivity|cbn in A1; lia]. }
  induction NR as [|e es E NR IH]; intros s T; cbn [crun]; [reflexivity|].
  rewrite IH.
  - destruct e as [l|room| |n|room]; cbn [cstep]; try contradiction; try reflexivity.
    + rewrite <- (FI k l s). unfold set_commit. destruct (commit (set_blocks k l s)); reflexivity.
    + now rewrite T.
  - destruct e as [l|room| |n|room]; cbn [cstep]; try contradiction; try assumption.
    + destruct (commit_hello (set_blocks k l s)) as (_ & _ & C3 & _).
      destruct (blocks_hello k l s) as (_ & _ & B3 & _). rewrite C3, B3. now destruct l.
    + now rewrite T.
Qed.

(** If they are configured and the device has a name and an IP suite, the first three
    expirations of the timer send one message each, with name and suite. *)
Theorem C68_sent : forall k f,
  let s := cinit k true f in
  k_hello k = true -> cstr (a_name (cur s)) <> [] ->
  (ip_addr (a_suite (cur s)) <> 0 \/ ip_mask (a_suite (cur s)) <> 0 \/ ip_gateway (a_suite (cur s)) <> 0) ->
  let m := CHello (cstr (a_name (cur s))) (a_suite (cur s)) in
  ctr (crun k [NHello true; NHello true; NHello true] s) = [m; m; m] ++ ctr s.
Proof.
  intros k f s H N P. apply have_name_iff in N.
  assert (P' : have_ip (cur s) = true).
  { unfold have_ip. destruct (Z.eqb_spec (ip_addr (a_suite (cur s))) 0); [|reflexivity].
    destruct (Z.eqb_spec (ip_mask (a_suite (cur s))) 0); [|reflexivity].
    destruct (Z.eqb_spec (ip_gateway (a_suite (cur s))) 0); [|reflexivity]. lia. }
  assert (E : cs s = WConnect /\ hellos s = 3%nat /\ hello_timer s = true).
  { unfold s, cinit in *. rewrite H in *. set (s1 := set_default_cfg k 0 _) in *. clearbody s1.
    destruct (have_name (cur s1)) eqn:E1; cbn [negb] in *; [destruct (have_ip (cur s1)) eqn:E2; cbn [negb] in *|].
    - cbn. auto.
    - exfalso. destruct (k_dhcp k); [|cbn in P'; congruence].
      destruct (commit_same (with_cs SetIp s1)) as (X & _). rewrite X in P'. cbn in P'. congruence.
    - exfalso. destruct (k_dhcp k); [|cbn in N; congruence].
      destruct (commit_same (with_cs SetName s1)) as (X & _). rewrite X in N. cbn in N. congruence. }
  clearbody s. destruct s as [cu nv cc co he ht fi cons tr]. cbn in E. destruct E as (-> & -> & ->).
  reflexivity.
Qed.

Example C68_example : exists k, k_hello k = true /\
  length (filter is_hello (ctr (crun k (repeat (NHello true) 5) (cinit k true None)))) = 3%nat.
Proof.
  exists (mkCfg true false (mkSuite 3232235786 4294967040 0) (97 :: repeat 0 240) [] [] [] []).
  vm_compute. auto.
Qed.

(** ** C69: reset *)

(** A factory reset, or a reset to factory of mode 2 or more, is accepted and clears
    the reported and the stored name and suite, the file, the port settings and, in
    the modes from 3 on, the I&M data; the interface gets the empty suite and the
    application is told. *)
Theorem C69_clears : forall k r q s, r = RqFactory \/ (r = RqReset /\ 4 <= q) ->
  exists e t new, set_ind k r q s = (true, e, t) /\ ctr t = new ++ ctr s /\
  cstr (a_name (cur t)) = [] /\ a_suite (cur t) = suite0 /\
  cstr (a_name (nv t)) = [] /\ a_suite (nv t) = suite0 /\ file t = None /\
  interface new = Some suite0 /\ In CClearPorts new /\ In CJob new /\
  (In CClearIm new <-> r = RqFactory \/ 6 <= q) /\
  (exists app m, In (CResetInd app m) new /\ (r = RqReset -> m = q / 2) /\
     (app = true <-> r = RqFactory \/ 6 <= q)).
Proof.
  intros k r q s H.
  assert (D : forall m u, 2 <= m -> let t := set_default_cfg k m u in
    cur t = ase0 /\ nv t = ase0 /\ file t = None /\
    exists p, ctr t = p ++ ctr u /\ interface p = Some suite0 /\
    In CClearPorts p /\ In CJob p /\ (In CClearIm p <-> 3 <= m) /\
    In (CResetInd (3 <=? m) m) p).
  { intros m u Hm. unfold set_default_cfg.
    destruct (Z.eqb_spec m 0); [lia|]. destruct (Z.eqb_spec m 1); [lia|].
    assert (E : (m =? 2) || (3 <=? m) = true).
    { destruct (Z.eqb_spec m 2); [reflexivity|]. apply Z.leb_le. lia. }
    rewrite E. replace (0 <? m) with true by (symmetry; apply Z.ltb_lt; lia). cbn [orb].
    destruct (Z.leb_spec 3 m) as [L|L]; (split; [reflexivity|]; split; [reflexivity|]; split; [reflexivity|]).
    - exists [CJob; CResetInd true m; CClearPorts; CSetIp suite0 [] true; CClearIm]. cbn.
      repeat (split; [tauto|]). tauto.
    - exists [CJob; CResetInd false m; CClearPorts; CSetIp suite0 [] true]. cbn.
      repeat (split; [tauto|]). split; [|tauto]. split; [|lia].
      intros X. repeat (destruct X as [X|X]; [discriminate|]). destruct X. }
  assert (R : forall m, 2 <= m ->
    (r = RqFactory /\ m = 99 \/ r = RqReset /\ m = q / 2) ->
    exists u p, snd (set_ind k r q s) = set_default_cfg k m u /\ fst (fst (set_ind k r q s)) = true /\
      ctr u = p ++ ctr s /\ interface p = None /\ ~ In CClearIm p).
  { intros m Hm M.
    assert (X : forall m, exists p, ctr (snd (set_apply false false (Some m) (with_hello (hellos s) false s)))
      = p ++ ctr s /\ interface p = None /\ ~ In CClearIm p).
    { intros m'. destruct s as [cu n cc co he ht fi cons tr]. unfold set_apply, with_hello.
      cbn [cemit cur nv cs commit hellos hello_timer file conns ctr].
      destruct (have_name cu), (have_ip cu), cc; try (destruct cons);
        cbv [negb orb andb cs with_cs with_commit cemit abort_ars conns fst snd with_conns Nat.eqb
           cur nv file ctr hellos hello_timer];
      first [ exists [CJob]; split; [reflexivity|]; split; [reflexivity|]; intros [X|[]]; discriminate
            | eexists [_; CJob]; split; [reflexivity|]; split; [reflexivity|];
              intros [X|[X|[]]]; discriminate ]. }
    destruct M as [[-> ->]|[-> ->]]; unfold set_ind; cbn [set_parse].
    - destruct (X 99) as (p & X1 & X2 & X3).
      destruct (set_apply false false (Some 99) (with_hello (hellos s) false s)) as [ok u].
      cbn [snd fst] in *. exists u, p. auto.
    - rewrite Z.shiftr_div_pow2 by lia. change (2 ^ 1) with 2.
      destruct (X (q / 2)) as (p & X1 & X2 & X3).
      destruct (set_apply false false (Some (q / 2)) (with_hello (hellos s) false s)) as [ok u].
      cbn [snd fst] in *. exists u, p. auto. }
  assert (M : exists m, 2 <= m /\ (r = RqFactory /\ m = 99 \/ r = RqReset /\ m = q / 2) /\
    (3 <= m <-> r = RqFactory \/ 6 <= q)).
  { destruct H as [->|[-> H]]; [exists 99; split; [lia|]; split; [auto|]; split; [auto|lia]|].
    pose proof (Z.div_mod q 2 ltac:(lia)). pose proof (Z.mod_pos_bound q 2 ltac:(lia)).
    exists (q / 2). split; [lia|]. split; [auto|]. split; [right; lia|intros [X|X]; [discriminate|lia]]. }
  destruct M as (m & M1 & M2 & M3). destruct (R m M1 M2) as (u & p & R1 & R2 & R3 & R4 & R5).
  destruct (set_ind k r q s) as [[ok e] t]. cbn [fst snd] in R1, R2. subst ok t.
  destruct (D m u M1) as (D1 & D2 & D3 & p' & D4 & D5 & D6 & D7 & D8 & D9).
  exists e, (set_default_cfg k m u), (p' ++ p). split; [reflexivity|].
  split; [rewrite D4, R3; apply app_assoc|].
  rewrite D1, D2. repeat (split; [first [assumption|reflexivity]|]).
  split.
  { clear - D5. induction p' as [|o p' IH]; [discriminate|]. cbn in *. destruct o; auto. }
  split; [apply in_or_app; auto|]. split; [apply in_or_app; auto|]. split.
  { rewrite in_app_iff, D8, M3. tauto. }
  exists (3 <=? m), m. split; [apply in_or_app; auto|]. split.
  - intros X. destruct M2 as [[Y _]|[_ Y]]; [congruence|assumption].
  - now rewrite Z.leb_le.
Qed.

(** If name and suite were set and in use before (state W_CONNECT) no connection
    survives; they are ended with the error code for a reset.  Missing: a connection made while the device waits for name or suite. *)
Theorem C69_connections_partial : forall k r q s, r = RqFactory \/ r = RqReset -> cs s = WConnect ->
  conns (snd (set_ind k r q s)) = 0%nat /\
  (conns s <> 0%nat -> exists new, ctr (snd (set_ind k r q s)) = new ++ ctr s /\ In (CAbort (conns s) 32) new).
Proof.
  intros k r q s H W. split.
  2: {
    intros N. unfold set_ind.
    assert (A : forall m, exists new, ctr (snd (set_apply false false (Some m) (with_hello (hellos s) false s))) = new ++ ctr s /\ In (CAbort (conns s) 32) new).
    { intros m. destruct s as [cu n cc co he ht fi cons tr]. cbn in W, N. subst cc. unfold set_apply. cbn.
      destruct cons as [|cons]; [congruence|].
      destruct (have_name cu), (have_ip cu); cbn; eexists [_; _]; (split; [reflexivity|left; reflexivity]). }
    assert (B : forall m, exists new, ctr (set_default_cfg k m (snd (set_apply false false (Some m) (with_hello (hellos s) false s)))) = new ++ ctr s /\ In (CAbort (conns s) 32) new).
    { intros m. destruct (A m) as (new & E & I). destruct (default_ctr k m (snd (set_apply false false (Some m) (with_hello (hellos s) false s)))) as (p & D & _).
      exists (p ++ new). rewrite D, E. split; [apply app_assoc|apply in_or_app; right; exact I]. }
    destruct H as [->| ->]; cbn [set_parse].
    - specialize (B 99). destruct (set_apply false false (Some 99) (with_hello (hellos s) false s)). exact B.
    - specialize (B (Z.shiftr q 1)). destruct (set_apply false false (Some (Z.shiftr q 1)) (with_hello (hellos s) false s)). exact B. }
  assert (D : forall m u, conns (set_default_cfg k m u) = conns u).
  { intros m u. unfold set_default_cfg.
    destruct (m =? 0), (file u), ((m =? 1) || (3 <=? m)), ((m =? 2) || (3 <=? m)), (0 <? m); reflexivity. }
  assert (A : forall m u, cs u = WConnect -> conns (snd (set_apply false false (Some m) u)) = 0%nat).
  { intros m [cu n cc co he ht fi cons tr] X. cbn in X. subst cc. unfold set_apply.
    cbn [cemit cur nv cs commit hellos hello_timer file conns ctr].
    destruct (have_name cu), (have_ip cu), cons; reflexivity. }
  unfold set_ind. destruct H as [->| ->]; cbn [set_parse].
  - pose proof (A 99 (with_hello (hellos s) false s) W) as X.
    destruct (set_apply false false (Some 99) (with_hello (hellos s) false s)); cbn [snd fst] in *; now rewrite D.
  - pose proof (A (Z.shiftr q 1) (with_hello (hellos s) false s) W) as X.
    destruct (set_apply false false (Some (Z.shiftr q 1)) (with_hello (hellos s) false s)); cbn [snd fst] in *; now rewrite D.
Qed.

Example C69_example : exists s, cs s = WConnect /\ conns s = 1%nat /\
  s = crun ex_cfg [NConns 1] (cinit ex_cfg true None).
Proof. eexists. split; [|split; [|reflexivity]]; reflexivity. Qed.

(** The suite is cleared while a connection is active: the interface keeps its
    address.  A connection that is made then survives a factory reset.  And a reset
    of the application data alone (mode 1) loses a name that was set for the time
    until the next power cycle. *)
Theorem C69_refuted :
  (exists k, good_cfg k /\
     conns (crun k [NConns 1; NSet [(RqSuite suite0, 1)]; NConns 1; NSet [(RqFactory, 1)]] (cinit k true None)) = 1%nat) /\
  (exists k v, good_cfg k /\ v <> [] /\
     let s := crun k [NSet [(RqName v, 0)]] (cinit k true None) in
     cstr (a_name (cur s)) = v /\
     cstr (a_name (cur (crun k [NSet [(RqReset, 2)]] s))) = []).
Proof.
  split.
  - exists ex_cfg. split; [exact ex_cfg_good|]. vm_compute. reflexivity.
  - exists ex_cfg, [98]. split; [exact ex_cfg_good|]. split; [discriminate|]. vm_compute. auto.
Qed.

Print Assumptions C62_sound_partial.
Print Assumptions C62_complete_partial.
Print Assumptions C62_refuted.
Print Assumptions C63_suite.
Print Assumptions C64_refused_partial.
Print Assumptions C64_refuted.
Print Assumptions C65_reported.
Print Assumptions C65_interface_partial.
Print Assumptions C65_refuted.
Print Assumptions C66_persistence.
Print Assumptions C66_name.
Print Assumptions C66_suite.
Print Assumptions C67_valid_settings.
Print Assumptions C68_at_most_three.
Print Assumptions C68_silent.
Print Assumptions C68_sent.
Print Assumptions C69_clears.
Print Assumptions C69_connections_partial.
Print Assumptions C69_refuted.
