(** C125: the names of the device that are set and read through SNMP. *)
From Coq Require Import List ZArith Bool Lia Arith.
From Verif Require Import Base BlockModel FspmModel FspmProps SnmpModel.
Import ListNotations.
Local Open Scope Z_scope.

(** * Specification *)

(** A possible device: its I&M data and the ones in its file are terminated texts. *)
Definition sys_ok (s : sys) : Prop := im_ok (s_im (y_im s)) /\ forall m, s_file (y_im s) = Some m -> im_ok m.
(** Characters an SNMP variable has room for: a DisplayString (0..255) for contact and location, the
    length of a host name for the name. *)
Definition room (x : which) : nat := match x with Contact => 255 | Name => 63 | Location => 255 end.
(** Possible events: an SNMP value is a terminated text in its array, a record has less than 65536
    bytes, a reset has one of the modes the standard knows. *)
Definition ev_ok (e : sev) : Prop :=
  match e with
  | SSet x v _ => terminated (room x) v
  | SWrite ix d _ => 45040 <= ix <= 45055 /\ Z.of_nat (length d) < 65536
  | SReset mode => 1 <= mode
  | _ => True
  end.
(** An event that is meant to change a variable. *)
Definition touches (sup : Z) (x : which) (e : sev) : Prop :=
  match e with
  | SSet y _ _ => y = x
  | SWrite ix d _ => x = Location /\ ix = 45041 /\ acceptable sup ix d
  | SReset _ | SRemove => True
  | _ => False
  end.
(** The first 22 characters of a location, padded with spaces: what I&M1 has room for. *)
Definition short (l : list Z) : list Z := firstn 22 (l ++ repeat 32 22).

(** * Lemmas *)

Lemma room_size : forall x, (size x - 1)%nat = room x.
Proof. intros []; reflexivity. Qed.
Lemma which_eqb_refl : forall x, which_eqb x x = true.
Proof. intros []; reflexivity. Qed.
Lemma which_eqb_spec : forall x y, which_eqb x y = true <-> x = y.
Proof. intros [] []; cbn; split; congruence. Qed.
Lemma upd_same : forall A (f : which -> A) x v, upd f x v x = v.
Proof. intros. unfold upd. rewrite which_eqb_refl. reflexivity. Qed.
Lemma upd_other : forall A (f : which -> A) x y v, x <> y -> upd f x v y = f y.
Proof. intros A f x y v N. unfold upd. destruct (which_eqb x y) eqn:E; [apply which_eqb_spec in E; contradiction|reflexivity]. Qed.
Lemma size_pos : forall x, (1 <= size x)%nat.
Proof. intros []; cbn; lia. Qed.

Lemma before_firstn : forall n a, before_nul (firstn n a) = firstn n (before_nul a).
Proof.
  induction n as [|n IH]; intros a; [reflexivity|]. destruct a as [|x a]; [reflexivity|]. cbn [firstn before_nul]. destruct (x =? 0); [reflexivity|]. rewrite IH. reflexivity.
Qed.
Lemma in_array_copied : forall n a, in_array n a = copied n a.
Proof. intros. apply before_firstn. Qed.
Lemma copied_all : forall n v, terminated (n - 1) v -> copied n v = before_nul v.
Proof. intros n v T. unfold copied. apply firstn_all2. exact (terminated_le _ _ T). Qed.
Lemma padded_ok : forall s, terminated 22 (padded22 s).
Proof.
  intros s. unfold padded22, terminated. assert (L : length (firstn 22 (before_nul s ++ repeat 32 22)) = 22%nat) by (rewrite firstn_length, app_length, repeat_length; lia).
  split; [rewrite app_length, L; reflexivity|]. rewrite app_nth2 by lia. rewrite L. reflexivity.
Qed.
Lemma before_padded : forall s, before_nul (padded22 s) = short (before_nul s).
Proof.
  intros s. unfold padded22, short. rewrite before_nul_stop. apply before_nul_id. intros X. apply in_firstn_z in X. apply in_app_or in X. destruct X as [X|X]; [exact (before_nul_in _ X)|].
  apply repeat_spec in X. discriminate.
Qed.
Lemma short_length : forall l, length (short l) = 22%nat.
Proof. intros l. unfold short. rewrite firstn_length, app_length, repeat_length. lia. Qed.
Lemma short_short : forall l, short (short l) = short l.
Proof.
  intros l. unfold short at 1. rewrite firstn_app, short_length. change (22 - 22)%nat with 0%nat. rewrite firstn_O, app_nil_r. apply firstn_all2. rewrite short_length. lia.
Qed.
Lemma firstn_repeat_z : forall n k (x : Z), firstn n (repeat x k) = repeat x (Nat.min n k).
Proof. induction n as [|n IH]; intros [|k] x; try reflexivity. cbn. f_equal. apply IH. Qed.
Lemma short_text : forall a, terminated 22 a -> text 22 a = short (before_nul a).
Proof.
  intros a T. assert (L := terminated_le _ _ T). unfold text, short. rewrite firstn_app, firstn_all2 by exact L. f_equal. rewrite firstn_repeat_z. f_equal. lia.
Qed.
Lemma text_padded : forall s, text 22 (padded22 s) = short (before_nul s).
Proof. intros s. rewrite short_text by apply padded_ok. rewrite before_padded. apply short_short. Qed.

Lemma set_location_ok : forall m v, im_ok m -> im_ok (set_location m v).
Proof. intros m v (A & B & C & D & E). unfold set_location, im_ok. cbn. repeat (split; [first [assumption|apply padded_ok]|]). assumption. Qed.
Lemma clear_ok : im_ok clear_im.
Proof. unfold im_ok, terminated; cbn; tauto. Qed.
Lemma save_ok : forall ok m f, im_ok m -> (forall x, f = Some x -> im_ok x) ->
  im_ok (s_im (save_im ok (mkFst m f))) /\ forall x, s_file (save_im ok (mkFst m f)) = Some x -> im_ok x.
Proof. intros [] m f M F; cbn; (split; [exact M|]); [intros x [= <-]; exact M|exact F]. Qed.

(** One event: what remains, and that it is always possible. *)
Lemma sstep_all : forall sup def s e, 0 <= sup -> im_ok def -> sys_ok s -> ev_ok e ->
  exists s' r, sstep sup def s e = Ok (s', r) /\ sys_ok s'.
Proof.
  intros sup def s e P D (S1 & S2) E. destruct e as [x v d|ix d ok|ok|mode| |host ok]; cbn [sstep].
  - eexists. eexists. split; [reflexivity|]. unfold set_var, sys_ok. cbn [y_im]. destruct x; try (split; assumption).
    cbn [s_im s_file]. split; [apply set_location_ok; exact S1|exact S2].
  - destruct E as (I & N). destruct (write_im_all sup (s_im (y_im s)) ix d P S1 I N) as (m & r & W & M & _). rewrite W. cbn [obind].
    destruct r as [e|]; eexists; eexists; (split; [reflexivity|]); unfold sys_ok; cbn [y_im y_var y_file].
    + split; assumption.
    + destruct (ix =? ix_im0 + 1); cbn [im_location_ind y_im]; exact (save_ok ok m _ M S2).
  - eexists. eexists. split; [reflexivity|]. unfold sys_ok. cbn [y_im]. destruct (y_im s) as [m f]. exact (save_ok ok m f S1 S2).
  - eexists. eexists. split; [reflexivity|]. unfold sys_ok. destruct ((mode =? 1) || (3 <=? mode)), ((mode =? 2) || (3 <=? mode)); cbn; (split; [first [exact S1|exact clear_ok]|exact S2]).
  - eexists. eexists. split; [reflexivity|]. unfold sys_ok. cbn. split; [exact S1|discriminate].
  - cbn [obind fstep]. eexists. eexists. split; [reflexivity|]. unfold sys_ok, data_init. cbn [y_im].
    apply save_ok; [destruct (s_file (y_im s)) eqn:F; [exact (S2 _ eq_refl)|exact D]|exact S2].
Qed.

(** C125: no sequence of requests, resets and restarts fails. *)
Theorem C125_total : forall sup def h s, 0 <= sup -> im_ok def -> sys_ok s -> Forall ev_ok h ->
  exists s', srun sup def s h = Ok s' /\ sys_ok s'.
Proof.
  intros sup def. induction h as [|e h IH]; intros s P D S F; [exists s; split; [reflexivity|exact S]|].
  destruct (sstep_all sup def s e P D S (Forall_inv F)) as (s1 & r & E & S1). cbn [srun]. rewrite E. cbn [obind fst]. exact (IH s1 P D S1 (Forall_inv_tail F)).
Qed.
Print Assumptions C125_total.

(** * Setting and reading *)

(** C125: what was set is what is read, also if it could not be saved; the other variables stay; the
    location is also the one of I&M1, as far as it fits. *)
Theorem C125_set : forall sup def s x v d, terminated (room x) v ->
  exists s' r, sstep sup def s (SSet x v d) = Ok (s', r) /\ get_var s' x = before_nul v /\
    (forall y, y <> x -> get_var s' y = get_var s y /\ y_file s' y = y_file s y) /\
    (x = Location -> text 22 (i_loc (s_im (y_im s'))) = short (before_nul v)) /\
    (x <> Location -> y_im s' = y_im s) /\
    (d = Saved -> r = true).
Proof.
  intros sup def s x v d T. rewrite <- room_size in T. cbn [sstep]. unfold set_var. eexists. eexists. split; [reflexivity|]. unfold get_var. cbn [y_var y_file y_im].
  split; [rewrite upd_same, copied_all by exact T; apply firstn_all2; exact (terminated_le _ _ T)|].
  split; [intros y N; rewrite !upd_other by congruence; split; reflexivity|].
  split; [intros ->; cbn [s_im]; unfold set_location; cbn [i_loc]; apply text_padded|].
  split; [destruct x; intros N; congruence|]. intros ->. unfold store. destruct (y_file s x) as [o|]; [destruct (list_eq_dec Z.eq_dec o v)|]; reflexivity.
Qed.
Print Assumptions C125_set.

Definition keeps (x : which) (v : list Z) (s : sys) : Prop := y_var s x = before_nul v /\ y_file s x = Some v.
Lemma keeps_step : forall sup def s e x v s' r, 0 <= sup -> sys_ok s -> ev_ok e -> ~ touches sup x e -> terminated (size x - 1) v -> keeps x v s ->
  sstep sup def s e = Ok (s', r) -> keeps x v s'.
Proof.
  intros sup def s e x v s' r P (S1 & _) E T V (K1 & K2) X. destruct e as [y w d|ix d ok|ok|mode| |host ok]; cbn [sstep touches ev_ok] in *.
  - injection X as <- _. unfold set_var, keeps. cbn [y_var y_file]. rewrite !upd_other by congruence. split; assumption.
  - destruct E as (I & N). destruct (write_im_all sup (s_im (y_im s)) ix d P S1 I N) as (m & q & W & _ & A & _). rewrite W in X. cbn [obind] in X.
    destruct q as [e|]; injection X as <- _; [split; assumption|].
    change (ix_im0 + 1) with 45041. destruct (Z.eqb_spec ix 45041); [|split; assumption]. unfold keeps, im_location_ind. cbn [y_var y_file].
    rewrite !upd_other; [split; assumption| |]; intros <-; apply T; (split; [reflexivity|split; [assumption|apply A; reflexivity]]).
  - injection X as <- _. split; assumption.
  - contradiction T; exact I.
  - contradiction T; exact I.
  - cbn [fstep obind] in X. injection X as <- _. unfold keeps, data_init. cbn [y_var y_file]. rewrite K2. split; [|reflexivity]. rewrite in_array_copied. apply copied_all. exact V.
Qed.
Lemma keeps_run : forall sup def x v h s s', 0 <= sup -> im_ok def -> sys_ok s -> Forall ev_ok h -> Forall (fun e => ~ touches sup x e) h -> terminated (size x - 1) v -> keeps x v s ->
  srun sup def s h = Ok s' -> keeps x v s'.
Proof.
  intros sup def x v. induction h as [|e h IH]; intros s s' P D S F T V K X; [injection X as <-; exact K|].
  destruct (sstep_all sup def s e P D S (Forall_inv F)) as (s1 & r & E & S1). cbn [srun] in X. rewrite E in X. cbn [obind fst] in X.
  refine (IH s1 s' P D S1 (Forall_inv_tail F) (Forall_inv_tail T) V _ X). exact (keeps_step sup def s e x v s1 r P S (Forall_inv F) (Forall_inv T) V K E).
Qed.
Lemma store_true : forall d v f, snd (store d v f) = true -> fst (store d v f) = Some v.
Proof.
  intros d v f H. unfold store in *. destruct f as [o|]; [destruct (list_eq_dec Z.eq_dec o v) as [->|]; [reflexivity|]|]; destruct d; cbn in *; congruence.
Qed.

(** C125: a value that was set with success is read until it is set again or reset, over any
    number of restarts; refused records do not change it. *)
Theorem C125_kept : forall sup def s x v d s1 h s', 0 <= sup -> im_ok def -> sys_ok s -> terminated (room x) v ->
  sstep sup def s (SSet x v d) = Ok (s1, true) ->
  Forall ev_ok h -> Forall (fun e => ~ touches sup x e) h -> srun sup def s1 h = Ok s' -> get_var s' x = before_nul v.
Proof.
  intros sup def s x v d s1 h s' P D S T X F N R.
  assert (K : keeps x v s1 /\ sys_ok s1).
  { destruct (sstep_all sup def s (SSet x v d) P D S T) as (s2 & r & E & S2). rewrite X in E. injection E as <- <-. split; [|exact S2]. rewrite <- room_size in T.
    cbn [sstep] in X. unfold set_var in X. injection X as <- Y. unfold keeps. cbn [y_var y_file]. rewrite !upd_same.
    split; [apply copied_all; exact T|apply store_true; exact Y]. }
  rewrite <- room_size in T. destruct K as (K & S1). destruct (keeps_run sup def x v h s1 s' P D S1 F N T K R) as (V & _). unfold get_var. rewrite V. apply firstn_all2. exact (terminated_le _ _ T).
Qed.
Print Assumptions C125_kept.

(** * Reset *)

Definition gone (x : which) (s : sys) : Prop := y_file s x = None.
Lemma gone_step : forall sup def s e x s' r, (forall v d, e <> SSet x v d) -> gone x s -> sstep sup def s e = Ok (s', r) -> gone x s'.
Proof.
  intros sup def s e x s' r N G X. unfold gone in *. destruct e as [y w d|ix d ok|ok|mode| |host ok]; cbn [sstep] in X.
  - injection X as <- _. unfold set_var. cbn [y_file]. rewrite upd_other; [exact G|]. intros ->. exact (N w d eq_refl).
  - destruct (write_im sup (s_im (y_im s)) ix d) as [[m q]| |]; cbn [obind] in X; try discriminate. destruct q; injection X as <- _; [exact G|].
    change (ix_im0 + 1) with 45041. destruct (ix =? 45041); [|exact G]. unfold im_location_ind. cbn [y_file]. unfold upd. destruct (which_eqb Location x); [reflexivity|exact G].
  - injection X as <- _. exact G.
  - injection X as <- _. destruct ((mode =? 1) || (3 <=? mode)), ((mode =? 2) || (3 <=? mode)); cbn; first [exact G|reflexivity].
  - injection X as <- _. reflexivity.
  - cbn [fstep obind] in X. injection X as <- _. exact G.
Qed.
Lemma gone_run : forall sup def x h s s', (forall v d, ~ In (SSet x v d) h) -> gone x s -> srun sup def s h = Ok s' -> gone x s'.
Proof.
  intros sup def x. induction h as [|e h IH]; intros s s' N G X; [injection X as <-; exact G|]. cbn [srun] in X.
  destruct (sstep sup def s e) as [[s1 r]| |] eqn:E; cbn [obind fst] in X; try discriminate.
  refine (IH s1 s' _ _ X); [intros v d I; exact (N v d (or_intror I))|]. refine (gone_step sup def s e x s1 r _ G E). intros v d ->. exact (N v d (or_introl eq_refl)).
Qed.

Lemma srun_app : forall sup def h1 h2 s, srun sup def s (h1 ++ h2) = do x <- srun sup def s h1; srun sup def x h2.
Proof.
  intros sup def. induction h1 as [|e h1 IH]; intros h2 s; [reflexivity|]. cbn [app srun]. destruct (sstep sup def s e) as [[s1 r]| |]; cbn [obind fst]; [apply IH|reflexivity|reflexivity].
Qed.
Lemma boot_location : forall m, im_ok m -> in_array (size Location) (im_location m ++ [0]) = text 22 (i_loc m).
Proof.
  intros m (_ & L & _). unfold im_location. rewrite before_padded, <- short_text by exact L. rewrite in_array_copied. unfold copied. rewrite before_nul_stop.
  rewrite before_nul_id. { apply firstn_all2. rewrite text_length by exact L. cbn. lia. }
  rewrite short_text by exact L. rewrite <- before_padded. apply before_nul_in.
Qed.

(** C125: after a reset (of any mode) all three are empty; after the next start the name is the
    host name, the contact is empty and the location is the one of I&M1. *)
Theorem C125_reset : forall sup def s mode s1 h host ok s', 1 <= mode -> 0 <= sup -> im_ok def -> sys_ok s ->
  sstep sup def s (SReset mode) = Ok (s1, true) ->
  (forall x, get_var s1 x = []) /\
  (Forall ev_ok h -> srun sup def s1 (h ++ [SBoot host ok]) = Ok s' ->
    (forall x, (forall v d, ~ In (SSet x v d) h) -> get_var s' x =
      match x with Contact => [] | Name => match host with Some n => firstn 63 (before_nul n) | None => [] end | Location => text 22 (i_loc (s_im (y_im s'))) end)).
Proof.
  intros sup def s mode s1 h host ok s' M P D S X.
  assert (SO : sys_ok s1) by (destruct (sstep_all sup def s (SReset mode) P D S M) as (z & q & E & O); rewrite X in E; injection E as <- _; exact O).
  assert (Y : (forall x, y_var s1 x = []) /\ (forall x, y_file s1 x = None)).
  { cbn [sstep] in X. injection X as <-. destruct (Z.eqb_spec mode 1), (Z.eqb_spec mode 2), (Z.leb_spec 3 mode); try lia; cbn [orb]; split; reflexivity. }
  clear X. destruct Y as (Y1 & Y2). split; [intros x; unfold get_var; rewrite Y1; destruct x; reflexivity|].
  intros F R x N. rewrite srun_app in R. destruct (C125_total sup def h s1 P D SO F) as (s2 & E2 & O2). rewrite E2 in R. cbn [obind srun sstep] in R.
  assert (G : gone x s2) by (refine (gone_run sup def x h s1 s2 N _ E2); apply Y2). unfold gone in G.
  cbn [fstep obind fst] in R. injection R as <-. unfold get_var, data_init. cbn [y_var y_im y_file]. rewrite G. destruct x.
  - reflexivity.
  - destruct host as [n|]; [|reflexivity]. rewrite in_array_copied. unfold copied. rewrite firstn_firstn. reflexivity.
  - destruct O2 as (O2 & O3). rewrite boot_location.
    + assert (IO : im_ok (s_im (save_im ok (mkFst (match s_file (y_im s2) with Some m => m | None => def end) (s_file (y_im s2)))))).
      { apply save_ok; [destruct (s_file (y_im s2)) eqn:Q; [exact (O3 _ eq_refl)|exact D]|exact O3]. }
      apply firstn_all2. rewrite text_length by (exact (proj1 (proj2 IO))). cbn. lia.
    + apply save_ok; [destruct (s_file (y_im s2)) eqn:Q; [exact (O3 _ eq_refl)|exact D]|exact O3].
Qed.
Print Assumptions C125_reset.

(** * The location is in two places *)

(** The location that SNMP tells and the one of I&M1 agree. *)
Definition agree (s : sys) : Prop := text 22 (i_loc (s_im (y_im s))) = short (get_var s Location).
(** Histories without the cases of the findings below: no file fails, no power-off before the
    background job has saved a location (or a reset), no refused I&M1, no reset of mode 2.  [p]: a
    job is pending. *)
Fixpoint calm (sup : Z) (p : bool) (h : list sev) : Prop :=
  match h with
  | [] => True
  | SSet Location _ d :: h => d = Saved /\ calm sup true h
  | SSet _ _ _ :: h => calm sup p h
  | SWrite ix d _ :: h => (ix = 45041 -> acceptable sup ix d) /\ calm sup p h
  | SJob ok :: h => calm sup (if ok then false else p) h
  | SReset mode :: h => mode <> 2 /\ calm sup true h
  | SRemove :: h => calm sup p h
  | SBoot _ _ :: h => p = false /\ calm sup false h
  end.

Definition linv (p : bool) (s : sys) : Prop :=
  sys_ok s /\ agree s /\ (forall v, y_file s Location = Some v -> in_array (size Location) v = y_var s Location) /\
  (p = false -> forall v, y_file s Location = Some v -> exists m, s_file (y_im s) = Some m /\ text 22 (i_loc m) = text 22 (i_loc (s_im (y_im s)))).

Lemma get_short : forall n l, (22 <= n)%nat -> short (firstn n l) = short l.
Proof.
  intros n l H. unfold short. rewrite !firstn_app, firstn_firstn. replace (Nat.min 22 n) with 22%nat by lia. f_equal.
  rewrite firstn_length. rewrite !firstn_repeat_z. f_equal. lia.
Qed.
Lemma agree_var : forall s, agree s <-> text 22 (i_loc (s_im (y_im s))) = short (y_var s Location).
Proof. intros s. unfold agree, get_var. rewrite get_short by (cbn; lia). tauto. Qed.

Lemma write_loc : forall sup m ix d m' r, 0 <= sup -> im_ok m -> 45040 <= ix <= 45055 -> Z.of_nat (length d) < 65536 -> ix <> 45041 ->
  write_im sup m ix d = Ok (m', r) -> text 22 (i_loc m') = text 22 (i_loc m).
Proof.
  intros sup m ix d m' r P M I N X W. destruct (write_im_all sup m ix d P M I N) as (m1 & r1 & W1 & M1 & _ & _ & O & _). rewrite W in W1. injection W1 as <- <-.
  specialize (O 1 ltac:(lia) ltac:(lia)). unfold im_data in O. cbn [Z.eqb Pos.eqb] in O.
  assert (L : length (text 32 (i_fun m')) = length (text 32 (i_fun m))) by (rewrite !text_length; [reflexivity|apply M|apply M1]).
  apply (f_equal (skipn (length (text 32 (i_fun m'))))) in O. rewrite skipn_app, skipn_all, Nat.sub_diag in O. rewrite L, skipn_app, skipn_all, Nat.sub_diag in O. exact O.
Qed.

Lemma linv_step : forall sup def p s e h s' r, 0 <= sup -> im_ok def -> linv p s -> ev_ok e -> calm sup p (e :: h) -> sstep sup def s e = Ok (s', r) ->
  exists p', linv p' s' /\ calm sup p' h.
Proof.
  intros sup def p s e h s' r P D (S & A & V & Q) E C X.
  assert (S' : sys_ok s') by (destruct (sstep_all sup def s e P D S E) as (z & q & E1 & O); rewrite X in E1; injection E1 as <- _; exact O).
  rewrite agree_var in A. destruct e as [x v d|ix d ok|ok|mode| |host ok]; cbn [sstep calm ev_ok] in *.
  - destruct x.
    1,2: (injection X as <- _; exists p; split; [|exact C]; split; [exact S'|]; split; [apply agree_var; exact A|]; split; [exact V|exact Q]).
    destruct C as (-> & C). injection X as <- _. exists true. split; [|exact C]. split; [exact S'|]. rewrite agree_var. unfold set_var. cbn [y_var y_file y_im s_im].
    split; [unfold set_location; cbn [i_loc upd]; rewrite text_padded; unfold upd; cbn [which_eqb]; rewrite copied_all by exact E; reflexivity|].
    split; [|discriminate]. intros w H. unfold upd in *. cbn [which_eqb] in *. rewrite store_true in H. { injection H as <-. apply in_array_copied. }
    unfold store. destruct (y_file s Location) as [o|]; [destruct (list_eq_dec Z.eq_dec o v)|]; reflexivity.
  - destruct E as (I & N). destruct C as (C1 & C). exists p. split; [|exact C]. split; [exact S'|]. rewrite agree_var.
    destruct (write_im sup (s_im (y_im s)) ix d) as [[m q]| |] eqn:W; cbn [obind] in X; try discriminate.
    destruct (Z.eq_dec ix 45041) as [Y|Y].
    + assert (QN : q = None).
      { destruct (write_im_all sup (s_im (y_im s)) ix d P (proj1 S) I N) as (m1 & r1 & W1 & M1 & K & _). rewrite W in W1. injection W1 as <- <-. apply K. exact (C1 Y). }
      subst q ix. injection X as <- _. cbn [y_var y_file y_im im_location_ind]. destruct S' as (S1 & S2). cbn in S1.
      assert (SM : s_im (save_im ok (mkFst m (s_file (y_im s)))) = m) by (destruct ok; reflexivity).
      cbn [y_im im_location_ind] in S1. unfold upd. cbn [which_eqb]. split; [|split; discriminate].
      rewrite SM in *. unfold im_location. rewrite before_padded, short_short. apply short_text. exact (proj1 (proj2 S1)).
    + pose proof (write_loc sup _ ix d m q P (proj1 S) I N Y W) as L.
      destruct q as [e|]; injection X as <- _.
      * cbn [y_var y_file y_im s_im s_file]. rewrite L. split; [exact A|]. split; [exact V|exact Q].
      * change (ix_im0 + 1) with 45041. destruct (Z.eqb_spec ix 45041); [contradiction|]. cbn [y_var y_file y_im].
        assert (SM : s_im (save_im ok (mkFst m (s_file (y_im s)))) = m) by (destruct ok; reflexivity). rewrite SM, L. split; [exact A|]. split; [exact V|].
        intros H v F. destruct ok; cbn [save_im s_file s_im]; [exists m; split; [reflexivity|exact L]|exact (Q H v F)].
  - injection X as <- _. exists (if ok then false else p). split; [|exact C]. split; [exact S'|]. rewrite agree_var. cbn [y_var y_file y_im].
    assert (SM : s_im (save_im ok (y_im s)) = s_im (y_im s)) by (destruct ok; reflexivity). rewrite SM. split; [exact A|]. split; [exact V|].
    intros H v F. destruct ok; cbn [save_im s_file]; [eexists; split; reflexivity|exact (Q H v F)].
  - destruct C as (C1 & C). exists true. split; [|exact C]. split; [exact S'|]. rewrite agree_var. injection X as <- _.
    destruct (Z.eqb_spec mode 1), (Z.eqb_spec mode 2), (Z.leb_spec 3 mode); try lia; cbn [orb data_clear y_var y_file y_im s_im]; (split; [reflexivity|split; discriminate]).
  - injection X as <- _. exists p. split; [|exact C]. split; [exact S'|]. rewrite agree_var. cbn [remove_files y_var y_file y_im s_im]. split; [exact A|]. split; discriminate.
  - destruct C as (-> & C). exists false. split; [|exact C]. split; [exact S'|]. rewrite agree_var. cbn [fstep obind] in X. injection X as <- _.
    destruct S' as (S1 & S2). unfold data_init in *. cbn [y_var y_file y_im] in *.
    destruct (y_file s Location) as [v|] eqn:F.
    + destruct (Q eq_refl v eq_refl) as (m & Fm & Lm). rewrite Fm in *.
      assert (SM : s_im (save_im ok (mkFst m (Some m))) = m) by (destruct ok; reflexivity). rewrite SM in *.
      split; [rewrite (V v eq_refl), Lm; exact A|]. split; [intros w [= <-]; reflexivity|].
      intros _ w _. exists m. split; [destruct ok; reflexivity|reflexivity].
    + split; [|split; discriminate]. set (f := save_im ok _) in *. clearbody f. rewrite boot_location by exact S1.
      rewrite short_text by (exact (proj1 (proj2 S1))). symmetry. apply short_short.
Qed.

(** C125: the two agree at any time, if the cases of the findings are left out. *)
Theorem C125_location_partial : forall sup def s host ok h s', 0 <= sup -> im_ok def -> sys_ok s -> y_file s Location = None ->
  Forall ev_ok h -> calm sup false h -> srun sup def s (SBoot host ok :: h) = Ok s' -> agree s'.
Proof.
  intros sup def s host ok h s' P D S N F C R.
  assert (G : forall h p s, linv p s -> Forall ev_ok h -> calm sup p h -> srun sup def s h = Ok s' -> agree s').
  { clear h s S N F C R. induction h as [|e h IH]; intros p s L F C R; [injection R as <-; exact (proj1 (proj2 L))|]. cbn [srun] in R.
    destruct (sstep sup def s e) as [[s1 r]| |] eqn:E; cbn [obind fst] in R; try discriminate.
    destruct (linv_step sup def p s e h s1 r P D L (Forall_inv F) C E) as (p' & L' & C'). exact (IH p' s1 L' (Forall_inv_tail F) C' R). }
  cbn [srun] in R. destruct (sstep_all sup def s (SBoot host ok) P D S Logic.I) as (s1 & r & E & S1). rewrite E in R. cbn [obind fst] in R.
  refine (G h false s1 _ F C R). split; [exact S1|]. rewrite agree_var. cbn [sstep fstep obind] in E. injection E as <- _.
  destruct S1 as (S1 & _). unfold data_init in *. cbn [y_var y_file y_im] in *. rewrite N. set (f := save_im ok _) in *. clearbody f.
  split; [|split; discriminate]. rewrite boot_location by exact S1. rewrite short_text by (exact (proj1 (proj2 S1))). symmetry. apply short_short.
Qed.
Print Assumptions C125_location_partial.

(** * Findings, and an example *)

Definition arr (n : nat) (s : list Z) : list Z := s ++ repeat 0 (n - length s).
Definition ex_sys : sys := mkSys (fun _ => []) (fun _ => None) (mkFst clear_im None).
Definition ex_hall : list Z := arr 256 [72; 97; 108; 108].
Definition ex_im1 : list Z := repeat 70 32 ++ [75] ++ repeat 32 21.
Example C125_example : let h := [SSet Location ex_hall Saved; SJob true; SSet Name (arr 64 [120]) Saved; SBoot (Some [104; 0]) true; SWrite 45041 ex_im1 true; SBoot (Some [104; 0]) true] in
  im_ok clear_im /\ sys_ok ex_sys /\ Forall ev_ok h /\ calm 30 false h /\
  exists s', srun 30 clear_im ex_sys (SBoot (Some [104; 0]) true :: h) = Ok s' /\ get_var s' Name = [120] /\ get_var s' Location = [75] ++ repeat 32 21.
Proof.
  cbv zeta. split; [exact clear_ok|]. split; [split; [exact clear_ok|discriminate]|].
  split; [repeat constructor; unfold terminated; vm_compute; intuition discriminate|].
  split; [cbn; unfold acceptable; vm_compute; intuition discriminate|].
  eexists. split; [vm_compute; reflexivity|]. split; vm_compute; reflexivity.
Qed.

(** Finding: the location is saved at once in the file of SNMP and later in the one of I&M data; after
    a power-off in between, the two differ for good. *)
Theorem C125_power_off_refuted : exists s', sys_ok ex_sys /\
  srun 30 clear_im ex_sys [SBoot None true; SSet Location ex_hall Saved; SBoot None true; SJob true; SBoot None true] = Ok s' /\
  get_var s' Location = [72; 97; 108; 108] /\ text 22 (i_loc (s_im (y_im s'))) = repeat 32 22.
Proof. eexists. split; [split; [exact clear_ok|discriminate]|]. split; [vm_compute; reflexivity|]. split; vm_compute; reflexivity. Qed.
Print Assumptions C125_power_off_refuted.
(** Finding: a reset of mode 2 empties the location told by SNMP, I&M1 keeps it; after the next start
    it is there again. *)
Theorem C125_mode_refuted : exists s1 s2 h, Forall ev_ok h /\
  srun 30 clear_im ex_sys h = Ok s1 /\ srun 30 clear_im s1 [SBoot None true] = Ok s2 /\
  get_var s1 Location = [] /\ text 22 (i_loc (s_im (y_im s1))) = [72; 97; 108; 108] ++ repeat 32 18 /\ get_var s2 Location = [72; 97; 108; 108] ++ repeat 32 18.
Proof.
  eexists. eexists. exists [SBoot None true; SSet Location ex_hall Saved; SJob true; SReset 2]. split; [repeat constructor; unfold terminated; vm_compute; intuition discriminate|].
  split; [vm_compute; reflexivity|]. split; [vm_compute; reflexivity|]. split; [vm_compute; reflexivity|]. split; vm_compute; reflexivity.
Qed.
Print Assumptions C125_mode_refuted.
(** Finding: an I&M1 record that is refused changes the location of I&M1 (C108) but not the one of
    SNMP. *)
Theorem C125_refused_refuted : exists s1 s2, srun 30 clear_im ex_sys [SBoot None true] = Ok s1 /\ agree s1 /\
  sstep 30 clear_im s1 (SWrite 45041 (repeat 75 55) true) = Ok (s2, false) /\ ~ agree s2.
Proof.
  eexists. eexists. split; [vm_compute; reflexivity|]. split; [vm_compute; reflexivity|]. split; [vm_compute; reflexivity|]. vm_compute. discriminate.
Qed.
Print Assumptions C125_refused_refuted.
(** Finding: a value whose saving failed is refused but in effect until the next start. *)
Theorem C125_failed_refuted : exists s1 s2, sstep 30 clear_im ex_sys (SSet Name (arr 64 [120]) Kept) = Ok (s1, false) /\
  get_var ex_sys Name = [] /\ get_var s1 Name = [120] /\ srun 30 clear_im s1 [SBoot None true] = Ok s2 /\ get_var s2 Name = [].
Proof.
  eexists. eexists. split; [vm_compute; reflexivity|]. split; [vm_compute; reflexivity|]. split; [vm_compute; reflexivity|]. split; vm_compute; reflexivity.
Qed.
Print Assumptions C125_failed_refuted.
