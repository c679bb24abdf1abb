(** The two formats of diagnoses do not touch each other. *)
From Coq Require Import List Arith Bool ZArith Lia.
From Verif Require Import Base DiagModel DiagLists DiagSpec DiagInv DiagSteps DiagProps DiagApiModel.
Import ListNotations.
Open Scope Z_scope.

(** * Specification *)

(** The format of a diagnosis and of a call. *)
Definition is_std (d : diag) : bool := match d with Standard _ _ => true | Manufacturer _ _ => false end.
Definition std_call (a : api) : bool :=
  match a with StdAdd _ _ _ _ _ _ _ _ _ | StdUpdate _ _ _ _ _ _ | StdRemove _ _ _ _ => true | _ => false end.
(** The sub-slot of a call. *)
Definition place (a : api) : key :=
  match a with
  | StdAdd src _ _ _ _ _ _ _ _ | StdUpdate src _ _ _ _ _ | StdRemove src _ _ _ => s_key src
  | UsiAdd k _ _ _ _ _ | UsiUpdate k _ _ _ _ _ | UsiRemove k _ _ => k
  end.

(** The arguments have values of their types (pnet_api.h), and a standard diagnosis is not blank, as in
    DiagSpec.proper. *)
Definition typed (a : api) : Prop :=
  match a with
  | StdAdd src bits sev err ext _ qual _ _ =>
      0 <= s_group src <= 1 /\ 0 <= s_dir src <= 7 /\ 0 <= bits <= 7 /\ 0 <= sev <= 3 /\ 0 <= qual < 4294967296 /\ ~ (usi_source src /\ err = 0 /\ ext = 0)
  | StdUpdate src _ _ _ _ _ | StdRemove src _ _ _ => 0 <= s_group src <= 1 /\ 0 <= s_dir src <= 7
  | UsiAdd _ usi _ _ _ _ | UsiUpdate _ usi _ _ _ _ | UsiRemove _ usi _ => 0 <= usi < 65536
  end.

(** * Proof *)

Definition other (usi : Z) (d : diag) : bool := if usi <? 32768 then is_std d else negb (is_std d).

Lemma other_key : forall src err ext usi d, other usi d = true -> has_key (named src err ext usi) d = false.
Proof. intros src err ext usi d H. unfold other, named, has_key in *. destruct (usi <? 32768), d; cbn [is_std negb] in H; try discriminate H; (match goal with |- context [dkey_eq_dec ?a ?b] => destruct (dkey_eq_dec a b) as [E|E] end); try reflexivity; discriminate E. Qed.

Lemma filter_keep : forall usi src err ext l, filter (other usi) (filter (fun e => negb (has_key (named src err ext usi) e)) l) = filter (other usi) l.
Proof.
  intros usi src err ext l. induction l as [|d l IH]; [reflexivity|]. cbn [filter]. destruct (other usi d) eqn:O.
  - rewrite (other_key _ _ _ _ _ O). cbn [negb filter]. rewrite O. f_equal. exact IH.
  - destruct (negb (has_key (named src err ext usi) d)); cbn [filter]; rewrite ?O; exact IH.
Qed.

Lemma filter_le : forall (A : Type) (f : A -> bool) l, (length (filter f l) <= length l)%nat.
Proof. intros A f l. induction l as [|a l IH]; cbn; [lia|]. destruct (f a); cbn; lia. Qed.

Section S.
Variable max : nat.
Variable maxm : Z.
Variable n : nat.
Hypothesis max_pos : (0 < max)%nat.
Notation reach := (dreach max maxm n proper).

Definition apart (usi : Z) (p : key) (s s' : dstate) : Prop :=
  (forall k, k <> p -> stored max s' k = stored max s k) /\
  match stored max s p with
  | Some l => exists l', stored max s' p = Some l' /\ filter (other usi) l' = filter (other usi) l
  | None => stored max s' p = None
  end.

Lemma apart_same : forall usi p s, apart usi p s s.
Proof. intros usi p s. split; [reflexivity|]. destruct (stored max s p) as [l|]; [exists l; auto|reflexivity]. Qed.

Lemma add_apart : forall s src bits sev err ext addv qual usi len data ok1 ok2 s' r os, reach s -> proper (CAdd src bits sev err ext addv qual usi len data ok1 ok2) ->
  diag_add max maxm src bits sev err ext addv qual usi len data ok1 ok2 s = Some (s', r, os) -> apart usi (s_key src) s s'.
Proof.
  intros s src bits sev err ext addv qual usi len data ok1 ok2 s' r os R P E. set (x := CAdd src bits sev err ext addv qual usi len data ok1 ok2) in *.
  change (dstep max maxm x s = Some (s', r, os)) in E.
  destruct (add_valid maxm src sev err ext addv (Z.land qual (Z.lnot 7)) usi len data) eqn:V.
  2:{ assert (Q : dstep max maxm x s = Some (s, -1, [])). { cbn. unfold diag_add. cbv zeta. rewrite V. reflexivity. } rewrite Q in E. injection E as <- _ _. apply apart_same. }
  apply add_valid_iff in V. destruct (stored max s (s_key src)) as [l|] eqn:SL.
  2:{ rewrite (@C34_rejected max maxm n max_pos s x R P (or_intror SL)) in E. injection E as <- _ _. apply apart_same. }
  assert (D : In (named src err ext usi) (map key_of l) \/ (used max s < max)%nat \/ (~ In (named src err ext usi) (map key_of l) /\ used max s = max)).
  { destruct (in_dec dkey_eq_dec (named src err ext usi) (map key_of l)); [tauto|]. right. assert (U : (used max s <= max)%nat). { unfold used. pose proof (filter_le _ (fun i => d_use (items s i)) (seq 0 max)) as Q. rewrite seq_length in Q. exact Q. } destruct (Nat.lt_ge_cases (used max s) max); [tauto|]. right. split; [assumption|lia]. }
  destruct D as [D|[D|(D1 & D2)]].
  1,2: destruct (@C34_add max maxm n max_pos s l src bits sev err ext addv qual usi len data ok1 ok2 R P V SL ltac:(tauto)) as (s2 & r2 & os2 & Q & N & O); fold x in Q; rewrite E in Q; injection Q as -> _ _;
       (split; [exact O|]); rewrite SL; eexists; (split; [exact N|]); cbn [filter]; rewrite filter_keep;
       (replace (other usi (described src bits sev err ext addv qual usi len data)) with false by (unfold other, described; destruct (usi <? 32768); reflexivity)); reflexivity.
  pose proof (@C34_add_full max maxm n max_pos s l src bits sev err ext addv qual usi len data ok1 ok2 R P V SL D1 D2) as Q. fold x in Q. rewrite Q in E. injection E as <- _ _. apply apart_same.
Qed.

Lemma update_apart : forall s src err ext addv usi len data ok1 ok2 s' r os, reach s -> proper (CUpdate src err ext addv usi len data ok1 ok2) ->
  diag_update max maxm src err ext addv usi len data ok1 ok2 s = Some (s', r, os) -> apart usi (s_key src) s s'.
Proof.
  intros s src err ext addv usi len data ok1 ok2 s' r os R P E. set (x := CUpdate src err ext addv usi len data ok1 ok2) in *.
  change (dstep max maxm x s = Some (s', r, os)) in E.
  destruct (update_valid maxm src err ext addv usi len data) eqn:V.
  2:{ assert (Q : dstep max maxm x s = Some (s, -1, [])). { cbn. unfold diag_update. rewrite V. reflexivity. } rewrite Q in E. injection E as <- _ _. apply apart_same. }
  apply update_valid_iff in V. destruct (stored max s (s_key src)) as [l|] eqn:SL.
  2:{ rewrite (@C34_rejected max maxm n max_pos s x R P (or_intror (or_introl SL))) in E. injection E as <- _ _. apply apart_same. }
  destruct (in_dec dkey_eq_dec (named src err ext usi) (map key_of l)) as [D|D].
  2:{ rewrite (@C34_rejected max maxm n max_pos s x R P (or_intror (or_intror (ex_intro _ l (conj SL D))))) in E. injection E as <- _ _. apply apart_same. }
  apply in_map_iff in D. destruct D as (d & K & D).
  destruct (@C34_update max maxm n max_pos s l d src err ext addv usi len data ok1 ok2 R P V SL D K) as (s2 & r2 & os2 & Q & N & O). fold x in Q. rewrite E in Q. injection Q as -> _ _.
  split; [exact O|]. rewrite SL. eexists. split; [exact N|]. rewrite K. cbn [filter]. rewrite filter_keep.
  replace (other usi (updated addv len data d)) with false; [reflexivity|]. unfold other, named in *. destruct (usi <? 32768), d; cbn in *; try discriminate K; reflexivity.
Qed.

Lemma remove_apart : forall s src err ext usi ok s' r os, reach s -> proper (CRemove src err ext usi ok) ->
  diag_remove max src err ext usi ok s = Some (s', r, os) -> apart usi (s_key src) s s'.
Proof.
  intros s src err ext usi ok s' r os R P E. set (x := CRemove src err ext usi ok) in *.
  change (dstep max maxm x s = Some (s', r, os)) in E.
  destruct (remove_valid src err ext usi) eqn:V.
  2:{ assert (Q : dstep max maxm x s = Some (s, -1, [])). { cbn. unfold diag_remove. rewrite V. reflexivity. } rewrite Q in E. injection E as <- _ _. apply apart_same. }
  apply remove_valid_iff in V. destruct (stored max s (s_key src)) as [l|] eqn:SL.
  2:{ rewrite (@C34_rejected max maxm n max_pos s x R P (or_intror (or_introl SL))) in E. injection E as <- _ _. apply apart_same. }
  destruct (in_dec dkey_eq_dec (named src err ext usi) (map key_of l)) as [D|D].
  2:{ rewrite (@C34_rejected max maxm n max_pos s x R P (or_intror (or_intror (ex_intro _ l (conj SL D))))) in E. injection E as <- _ _. apply apart_same. }
  apply in_map_iff in D. destruct D as (d & K & D).
  destruct (@C34_remove max maxm n max_pos s l d src err ext usi ok R P V SL D K) as (s2 & r2 & os2 & Q & N & O & _). fold x in Q. rewrite E in Q. injection Q as -> _ _.
  split; [exact O|]. rewrite SL. eexists. split; [exact N|]. rewrite K. apply filter_keep.
Qed.

Lemma usi_src_ok : forall k usi, 0 <= usi -> src_ok (whole k) usi.
Proof. intros k usi H. unfold src_ok, usi_source, whole, whole_submodule. cbn. repeat split; lia. Qed.
Lemma std_src_ok : forall src q, 0 <= s_group src <= 1 -> 0 <= s_dir src <= 7 -> src_ok src (preferred_usi q).
Proof. intros src q H1 H2. unfold src_ok, preferred_usi, usi_qualified, usi_extended. destruct q; repeat split; lia. Qed.

(** * Theorems *)

(** A call in one format leaves the diagnoses of the other format as they are, in their order, and other
    sub-slots as they are. *)
Theorem C135_apart : forall q a s s' r os, reach s -> typed a -> api_step max maxm q a s = Some (s', r, os) ->
  (forall k, k <> place a -> stored max s' k = stored max s k) /\
  match stored max s (place a) with
  | Some l => exists l', stored max s' (place a) = Some l' /\ filter (fun d => negb (Bool.eqb (is_std d) (std_call a))) l' = filter (fun d => negb (Bool.eqb (is_std d) (std_call a))) l
  | None => stored max s' (place a) = None
  end.
Proof.
  intros q a s s' r os R T E.
  assert (G : exists usi, apart usi (place a) s s' /\ forall d, other usi d = negb (Bool.eqb (is_std d) (std_call a))).
  { destruct a as [src bits sev err ext addv qual ok1 ok2|src err ext addv ok1 ok2|src err ext ok|k usi len data ok1 ok2|k usi len data ok1 ok2|k usi ok]; cbn [api_step typed place std_call] in *.
    1,2,3: exists (preferred_usi q); (split; [|intros []; unfold other, preferred_usi, usi_qualified, usi_extended; destruct q; reflexivity]).
    - eapply add_apart; [exact R| |exact E]. destruct T as (T1 & T2 & T3 & T4 & T5 & T6). split; [|intros _; exact T6]. split; [apply std_src_ok; assumption|]. auto.
    - eapply update_apart; [exact R| |exact E]. split; [|exact Logic.I]. apply std_src_ok; apply T.
    - eapply remove_apart; [exact R| |exact E]. split; [|exact Logic.I]. apply std_src_ok; apply T.
    - unfold usi_channel in E. destruct (Z.leb_spec 32768 usi).
      + injection E as <- _ _. exists 0. split; [apply apart_same|intros []; reflexivity].
      + exists usi. split; [|intros []; unfold other; destruct (Z.ltb_spec usi 32768); try lia; reflexivity]. change k with (s_key (whole k)). eapply add_apart; [exact R| |exact E].
        split; [|cbn; intros; lia]. split; [apply usi_src_ok; lia|]. unfold m_fault. lia.
    - unfold usi_channel in E. destruct (Z.leb_spec 32768 usi).
      + injection E as <- _ _. exists 0. split; [apply apart_same|intros []; reflexivity].
      + exists usi. split; [|intros []; unfold other; destruct (Z.ltb_spec usi 32768); try lia; reflexivity]. change k with (s_key (whole k)). eapply update_apart; [exact R| |exact E].
        split; [apply usi_src_ok; lia|exact Logic.I].
    - unfold usi_channel in E. destruct (Z.leb_spec 32768 usi).
      + injection E as <- _ _. exists 0. split; [apply apart_same|intros []; reflexivity].
      + exists usi. split; [|intros []; unfold other; destruct (Z.ltb_spec usi 32768); try lia; reflexivity]. change k with (s_key (whole k)). eapply remove_apart; [exact R| |exact E].
        split; [apply usi_src_ok; lia|exact Logic.I]. }
  destruct G as (usi & (G1 & G2) & F). split; [exact G1|]. destruct (stored max s (place a)) as [l|]; [|exact G2]. destruct G2 as (l' & S & G2). exists l'. split; [exact S|].
  rewrite !(filter_ext _ _ F) in G2. exact G2.
Qed.

(** Manufacturer format: a number of the standard formats is refused, and nothing happens. *)
Theorem C135_usi_refused : forall q a s, 32768 <= match a with UsiAdd _ u _ _ _ _ | UsiUpdate _ u _ _ _ _ | UsiRemove _ u _ => u | _ => 0 end ->
  api_step max maxm q a s = Some (s, -1, []).
Proof. intros q a s H. destruct a; cbn [api_step]; try lia; unfold usi_channel; destruct (Z.leb_spec 32768 usi); try reflexivity; lia. Qed.

(** What is added in manufacturer format is stored with its number and data, in place of one with the same
    number. *)
Theorem C135_usi_added : forall q s l k usi len data ok1 ok2, reach s -> 0 <= usi < 32768 -> len <= maxm -> (0 < len -> data <> None) -> stored max s k = Some l ->
  In (KManufacturer usi) (map key_of l) \/ (used max s < max)%nat ->
  exists s' r os, api_step max maxm q (UsiAdd k usi len data ok1 ok2) s = Some (s', r, os) /\
    stored max s' k = Some (Manufacturer usi (match data with Some d => firstn (Z.to_nat len) d | None => [] end) :: filter (fun d => negb (has_key (KManufacturer usi) d)) l).
Proof.
  intros q s l k usi len data ok1 ok2 R U L D S Q. assert (N : named (whole k) 0 0 usi = KManufacturer usi) by (unfold named; destruct (Z.ltb_spec usi 32768); [reflexivity|lia]).
  destruct (@C34_add max maxm n max_pos s l (whole k) 0 0 0 0 0 0 usi len data ok1 ok2) as (s' & r & os & E & X & _); [exact R| | |exact S|rewrite N; exact Q|].
  - split; [|cbn; intros; lia]. split; [apply usi_src_ok; lia|]. lia.
  - unfold acceptable, acceptable_update, acceptable_key, acceptable_data, usi_known, whole, whole_submodule. cbn. repeat split; try lia; auto.
  - exists s', r, os. cbn [api_step]. unfold usi_channel. destruct (Z.leb_spec 32768 usi); [lia|]. split; [exact E|]. cbn [whole s_key] in X. rewrite X, N. unfold described. destruct (Z.ltb_spec usi 32768); [reflexivity|lia].
Qed.

(** What is added in standard format is stored in the format of the configuration, in place of one for the same
    channel, direction and errors.  Without qualified diagnosis there are no qualifiers. *)
Theorem C135_std_added : forall q s l src bits sev err ext addv qual ok1 ok2, reach s -> 0 <= maxm -> typed (StdAdd src bits sev err ext addv qual ok1 ok2) ->
  s_ch src <= 32768 -> Z.land qual 7 = 0 -> (qual <> 0 -> sev = 3) -> (q = false -> qual = 0 /\ sev <> 3) ->
  stored max s (s_key src) = Some l -> let K := KStandard (s_ch src) (s_group src) (s_dir src) err ext in
  In K (map key_of l) \/ (used max s < max)%nat ->
  exists s' r os, api_step max maxm q (StdAdd src bits sev err ext addv qual ok1 ok2) s = Some (s', r, os) /\
    stored max s' (s_key src) = Some (Standard (if q then 32771 else 32770) (mkStd (s_ch src) (props bits (s_group src) sev 1 (s_dir src)) err ext addv qual) :: filter (fun d => negb (has_key K d)) l).
Proof.
  intros q s l src bits sev err ext addv qual ok1 ok2 R M (T1 & T2 & T3 & T4 & T5 & T6) C Q7 QS QQ S K U.
  assert (QL : Z.land qual (Z.lnot 7) = qual). { rewrite <- Z.ldiff_land. pose proof (Z.ldiff_land qual 7) as A. pose proof (Z.lor_ldiff_and qual 7) as B. rewrite Q7, Z.lor_0_r in B. exact B. }
  assert (N : named src err ext (preferred_usi q) = K) by (unfold named, preferred_usi; destruct q; reflexivity).
  destruct (@C34_add max maxm n max_pos s l src bits sev err ext addv qual (preferred_usi q) 0 None ok1 ok2) as (s' & r & os & E & X & _); [exact R| | |exact S|rewrite N; exact U|].
  - split; [|intros _; exact T6]. split; [apply std_src_ok; assumption|]. auto.
  - unfold acceptable, acceptable_update, acceptable_key, acceptable_data, usi_known. cbv zeta. rewrite QL. unfold preferred_usi, usi_qualified, usi_extended. destruct q; repeat split; try lia; try (intros; apply QQ; reflexivity); intros; try reflexivity; try discriminate.
  - exists s', r, os. cbn [api_step]. split; [exact E|]. rewrite X, N. unfold described, preferred_usi, usi_qualified, usi_extended. rewrite QL. destruct q; reflexivity.
Qed.

(** An update changes the value or the data of the one that is named, and nothing else. *)
Theorem C135_updated : forall q s l d a, reach s -> 0 <= maxm -> typed a -> stored max s (place a) = Some l -> In d l ->
  match a with
  | StdUpdate src err ext addv _ _ =>
      s_ch src <= 32768 -> key_of d = KStandard (s_ch src) (s_group src) (s_dir src) err ext ->
      exists s' r os, api_step max maxm q a s = Some (s', r, os) /\ stored max s' (place a) = Some (updated addv 0 None d :: filter (fun e => negb (has_key (key_of d) e)) l)
  | UsiUpdate _ usi len data _ _ =>
      usi < 32768 -> len <= maxm -> (0 < len -> data <> None) -> key_of d = KManufacturer usi ->
      exists s' r os, api_step max maxm q a s = Some (s', r, os) /\ stored max s' (place a) = Some (updated 0 len data d :: filter (fun e => negb (has_key (key_of d) e)) l)
  | _ => True
  end.
Proof.
  intros q s l d a R M T S D. destruct a as [|src err ext addv ok1 ok2| | |k usi len data ok1 ok2|]; try exact Logic.I; cbn [place typed] in *.
  - intros C K. assert (N : named src err ext (preferred_usi q) = key_of d) by (rewrite K; unfold named, preferred_usi; destruct q; reflexivity).
    destruct (@C34_update max maxm n max_pos s l d src err ext addv (preferred_usi q) 0 None ok1 ok2) as (s' & r & os & E & X & _); [exact R| | |exact S|exact D|symmetry; exact N|exists s', r, os; auto].
    + split; [|exact Logic.I]. apply std_src_ok; apply T.
    + unfold acceptable_update, acceptable_key, acceptable_data, usi_known, preferred_usi, usi_qualified, usi_extended. destruct q; repeat split; try lia; intros; try reflexivity; try discriminate.
  - intros U L DD K. assert (N : named (whole k) 0 0 usi = key_of d) by (rewrite K; unfold named; destruct (Z.ltb_spec usi 32768); [reflexivity|lia]).
    destruct (@C34_update max maxm n max_pos s l d (whole k) 0 0 0 usi len data ok1 ok2) as (s' & r & os & E & X & _); [exact R| | |exact S|exact D|symmetry; exact N|].
    + split; [apply usi_src_ok; lia|exact Logic.I].
    + unfold acceptable_update, acceptable_key, acceptable_data, usi_known, whole, whole_submodule. cbn. repeat split; try lia; auto.
    + exists s', r, os. cbn [api_step]. unfold usi_channel. destruct (Z.leb_spec 32768 usi); [lia|]. auto.
Qed.

(** A removal takes away the one that is named, and nothing else. *)
Theorem C135_removed : forall q s l d a, reach s -> typed a -> stored max s (place a) = Some l -> In d l ->
  match a with
  | StdRemove src err ext _ =>
      s_ch src <= 32768 -> key_of d = KStandard (s_ch src) (s_group src) (s_dir src) err ext ->
      exists s' r os, api_step max maxm q a s = Some (s', r, os) /\ stored max s' (place a) = Some (filter (fun e => negb (has_key (key_of d) e)) l)
  | UsiRemove _ usi _ =>
      usi < 32768 -> key_of d = KManufacturer usi ->
      exists s' r os, api_step max maxm q a s = Some (s', r, os) /\ stored max s' (place a) = Some (filter (fun e => negb (has_key (key_of d) e)) l)
  | _ => True
  end.
Proof.
  intros q s l d a R T S D. destruct a as [| |src err ext ok| | |k usi ok]; try exact Logic.I; cbn [place typed] in *.
  - intros C K. assert (N : named src err ext (preferred_usi q) = key_of d) by (rewrite K; unfold named, preferred_usi; destruct q; reflexivity).
    destruct (@C34_remove max maxm n max_pos s l d src err ext (preferred_usi q) ok) as (s' & r & os & E & X & _); [exact R| | |exact S|exact D|symmetry; exact N|exists s', r, os; auto].
    + split; [|exact Logic.I]. apply std_src_ok; apply T.
    + unfold acceptable_key, usi_known, preferred_usi, usi_qualified, usi_extended. destruct q; repeat split; try lia.
  - intros U K. assert (N : named (whole k) 0 0 usi = key_of d) by (rewrite K; unfold named; destruct (Z.ltb_spec usi 32768); [reflexivity|lia]).
    destruct (@C34_remove max maxm n max_pos s l d (whole k) 0 0 usi ok) as (s' & r & os & E & X & _); [exact R| | |exact S|exact D|symmetry; exact N|].
    + split; [apply usi_src_ok; lia|exact Logic.I].
    + unfold acceptable_key, usi_known, whole, whole_submodule. cbn. repeat split; lia.
    + exists s', r, os. cbn [api_step]. unfold usi_channel. destruct (Z.leb_spec 32768 usi); [lia|]. auto.
Qed.
End S.
Print Assumptions C135_updated.
Print Assumptions C135_removed.
Print Assumptions C135_apart.
Print Assumptions C135_usi_refused.
Print Assumptions C135_usi_added.
Print Assumptions C135_std_added.

(** A sub-slot with a standard diagnosis on channel 4 and two of the manufacturer: the standard one goes, then
    one of the others is refused by its number. *)
Definition ex_key : key := (0, 1, 1).
Definition ex_src : source := mkSrc ex_key 4 0 1.
Definition ex_calls : list call :=
  [CPlug 0 ex_key; CAdd ex_src 1 0 16 0 0 0 32770 0 None true true; CAdd (whole ex_key) 0 0 0 0 0 0 17 2 (Some [7; 8]) true true;
   CAdd (whole ex_key) 0 0 0 0 0 0 18 0 None true true].
Example C135_example : exists s, dreach 4 16 1 proper s /\
  option_map (map key_of) (stored 4 s ex_key) = Some [KManufacturer 18; KManufacturer 17; KStandard 4 0 1 16 0] /\
  typed (StdRemove ex_src 16 0 true) /\
  (exists s' r os, api_step 4 16 false (StdRemove ex_src 16 0 true) s = Some (s', r, os) /\ stored 4 s' ex_key = Some [Manufacturer 18 []; Manufacturer 17 [7; 8]]) /\
  (exists s' r os, api_step 4 16 false (UsiRemove ex_key 17 true) s = Some (s', r, os) /\ option_map (map key_of) (stored 4 s' ex_key) = Some [KManufacturer 18; KStandard 4 0 1 16 0]) /\
  api_step 4 16 false (UsiRemove ex_key 32770 true) s = Some (s, -1, []).
Proof.
  destruct (drun 4 16 ex_calls (dinit 4 1) []) as [(s, tr)|] eqn:E; [|vm_compute in E; discriminate E].
  exists s. split.
  - exists ex_calls, tr. split; [|exact E]. repeat constructor; cbn; try lia; unfold src_ok, usi_source, ex_src, whole, whole_submodule; cbn; try lia; intros; lia.
  - vm_compute in E. injection E as <- _. split; [vm_compute; reflexivity|]. split; [cbn; lia|]. split; [eexists _, _, _; split; [vm_compute; reflexivity|vm_compute; reflexivity]|]. split; [eexists _, _, _; split; [vm_compute; reflexivity|vm_compute; reflexivity]|]. vm_compute. reflexivity.
Qed.
Print Assumptions C135_example.
