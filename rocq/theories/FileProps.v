(** Properties C24, C25 and C43 of the file storage. *)
From Coq Require Import List ZArith Arith Bool Lia.
From Verif Require Import Base CpmModel CpmProps FileModel.
Import ListNotations.
Local Open Scope Z_scope.

(** * Specification *)

(** The path of a file: the directory, a slash unless the directory ends in one,
    the name; only the name if there is no directory. *)
Definition spec_path (dir : option str) (fname : str) : str :=
  match dir with
  | None | Some [] => fname
  | Some d => if last d 0 =? slash then d ++ fname else d ++ [slash] ++ fname
  end.

(** The name fits: non-empty, and path, a slash and the terminator fit. *)
Definition fits (fullsize : nat) (dir : option str) (fname : str) : bool :=
  negb (length fname =? 0)%nat &&
  match dir with
  | None | Some [] => (length fname + 1 <=? fullsize)%nat
  | Some d => (length d + length fname + 2 <=? fullsize)%nat
  end.

(** The object that a restarted device finds under name [f], after a history of
    saves that may fail or be interrupted by power loss at any byte; [size] is the
    size of the objects stored under [f].  The state is the stored object. *)
Definition stored_after (obj : list Z) (e : save_end) (st : option (list Z)) : option (list Z) :=
  match e with
  | SvOk => Some obj
  | SvUntouched => st
  | SvFail k | SvCrash k => if (8 + length obj <=? k)%nat then Some obj else None
  end.

Definition stored_step (f : str) (st : option (list Z)) (o : fop) : option (list Z) :=
  match o with
  | FSave g obj e => if list_eq_dec Z.eq_dec g f then stored_after obj e st else st
  | FSaveIfMod g obj e =>
    if list_eq_dec Z.eq_dec g f then
      match st with
      | Some old => if list_eq_dec Z.eq_dec old obj then st else stored_after obj e st
      | None => stored_after obj e st
      end
    else st
  | FClear g => if list_eq_dec Z.eq_dec g f then None else st
  end.

Definition stored (f : str) (ops : list fop) : option (list Z) := fold_left (stored_step f) ops None.

(** All objects stored under [f] have the same size (the C type of the object). *)
Definition same_size (f : str) (size : nat) (o : fop) : Prop :=
  match o with
  | FSave g obj _ | FSaveIfMod g obj _ => g = f -> length obj = size
  | FClear _ => True
  end.

(** * Lemmas *)

Lemma last_nth : forall (l : list Z), l <> [] -> nth (length l - 1) l 0 = last l 0.
Proof.
  induction l as [|a l IH]; intros N; [contradiction|]. destruct l as [|b l]; [reflexivity|].
  replace (length (a :: b :: l) - 1)%nat with (Datatypes.S (length (b :: l) - 1)) by (cbn [length]; lia).
  change (nth (length (b :: l) - 1) (b :: l) 0 = last (b :: l) 0). apply IH. discriminate.
Qed.

Lemma join_spec : forall fullsize dir fname,
  join dir fname fullsize = Ok (if fits fullsize dir fname then Some (spec_path dir fname) else None).
Proof.
  intros fullsize dir fname. unfold join, fits.
  destruct fname as [|c fname]; [reflexivity|].
  change (length (c :: fname) <? 1)%nat with false. change (length (c :: fname) =? 0)%nat with false.
  set (f := c :: fname). clearbody f. cbn [negb andb].
  assert (Plain : (if (fullsize <? length f + 1)%nat then Ok None else do p <- strcpy fullsize f; Ok (Some p)) =
    Ok (if (length f + 1 <=? fullsize)%nat then Some f else None)).
  { unfold strcpy. destruct (Nat.ltb_spec fullsize (length f + 1)); destruct (Nat.leb_spec (length f + 1) fullsize); try lia; reflexivity. }
  destruct dir as [[|c0 d0]|]; [exact Plain| |exact Plain].
  change (length (c0 :: d0) =? 0)%nat with false. cbn [negb].
  set (d := c0 :: d0). assert (ND : d <> []) by discriminate.
  change (spec_path (Some d) f) with (if last d 0 =? slash then d ++ f else d ++ [slash] ++ f).
  clearbody d. clear c0 d0.
  destruct (Nat.ltb_spec fullsize (length d + length f + 2)) as [L|L].
  - destruct (Nat.leb_spec (length d + length f + 2) fullsize); [lia|reflexivity].
  - destruct (Nat.leb_spec (length d + length f + 2) fullsize); [|lia].
    unfold strcpy. destruct (Nat.leb_spec (length d + 1) fullsize); [|lia]. cbn [obind].
    rewrite last_nth by exact ND. unfold strcat.
    destruct (last d 0 =? slash); cbn [negb obind].
    + destruct (Nat.leb_spec (length d + length f + 1) fullsize); [|lia]. reflexivity.
    + cbn [length]. destruct (Nat.leb_spec (length d + 1 + 1) fullsize); [|lia]. cbn [obind].
      rewrite app_length. cbn [length].
      destruct (Nat.leb_spec (length d + 1 + length f + 1) fullsize); [|lia]. cbn [obind].
      rewrite <- app_assoc. reflexivity.
Qed.

Lemma spec_path_inj : forall dir f g, spec_path dir f = spec_path dir g -> f = g.
Proof.
  intros [[|c d]|] f g H; [exact H| |exact H]. unfold spec_path in H.
  destruct (last (c :: d) 0 =? slash); apply app_inv_head in H; [exact H|]. injection H as H. exact H.
Qed.

Lemma fs_upd_same : forall fs p v, fs_upd fs p v p = v.
Proof. intros. unfold fs_upd. destruct (list_eq_dec Z.eq_dec p p); [reflexivity|contradiction]. Qed.
Lemma fs_upd_other : forall fs p v q, q <> p -> fs_upd fs p v q = fs q.
Proof. intros. unfold fs_upd. destruct (list_eq_dec Z.eq_dec q p); [contradiction|reflexivity]. Qed.

(** What loading from a file content gives. *)
Definition content_load (c : option (list Z)) (size : nat) : option (list Z) :=
  match c with
  | Some c =>
    if (length c <? 8 + size)%nat then None
    else if negb (get_be32 (firstn 8 c) 0 =? file_magic) then None
    else if negb (get_be32 (firstn 8 c) 4 =? file_version) then None
    else Some (firstn size (skipn 8 c))
  | None => None
  end.

Lemma file_load_spec : forall fullsize fs dir f size,
  file_load fullsize fs dir f size = Ok (if fits fullsize dir f then content_load (fs (spec_path dir f)) size else None).
Proof.
  intros. unfold file_load. rewrite join_spec. cbn [obind]. destruct (fits fullsize dir f); [|reflexivity].
  unfold pnal_load, content_load. destruct (fs (spec_path dir f)) as [c|]; [|reflexivity].
  destruct (length c <? 8 + size)%nat; [reflexivity|].
  destruct (negb (get_be32 (firstn 8 c) 0 =? file_magic)); [reflexivity|].
  destruct (negb (get_be32 (firstn 8 c) 4 =? file_version)); reflexivity.
Qed.

Lemma content_load_own : forall obj, content_load (Some (file_header ++ obj)) (length obj) = Some obj.
Proof.
  intros obj. unfold content_load. rewrite app_length. change (length file_header) with 8%nat.
  destruct (Nat.ltb_spec (8 + length obj) (8 + length obj)); [lia|].
  change (firstn 8 (file_header ++ obj)) with file_header.
  change (get_be32 file_header 0 =? file_magic) with true. change (get_be32 file_header 4 =? file_version) with true.
  cbn [negb]. change (skipn 8 (file_header ++ obj)) with obj. rewrite firstn_all. reflexivity.
Qed.

Lemma content_load_prefix : forall obj k, content_load (Some (firstn k (file_header ++ obj))) (length obj) =
  if (8 + length obj <=? k)%nat then Some obj else None.
Proof.
  intros obj k. destruct (Nat.leb_spec (8 + length obj) k) as [L|L].
  - rewrite firstn_all2 by (rewrite app_length; change (length file_header) with 8%nat; lia). apply content_load_own.
  - unfold content_load. rewrite firstn_length, app_length. change (length file_header) with 8%nat.
    destruct (Nat.ltb_spec (Nat.min k (8 + length obj)) (8 + length obj)); [reflexivity|lia].
Qed.

Lemma file_save_spec : forall fullsize fs dir f obj e,
  file_save fullsize fs dir f obj e =
  Ok (if fits fullsize dir f then pnal_save fs (spec_path dir f) file_header obj e else (Some (-1), fs)).
Proof. intros. unfold file_save. rewrite join_spec. cbn [obind]. destruct (fits fullsize dir f); reflexivity. Qed.

Lemma pnal_save_load : forall fs p obj e, content_load (snd (pnal_save fs p file_header obj e) p) (length obj) =
  stored_after obj e (content_load (fs p) (length obj)).
Proof.
  intros fs p obj [|k| |k]; cbn [pnal_save snd stored_after]; rewrite ?fs_upd_same;
  [apply content_load_own|apply content_load_prefix|reflexivity|apply content_load_prefix].
Qed.

Lemma pnal_save_other : forall fs p o1 o2 e q, q <> p -> snd (pnal_save fs p o1 o2 e) q = fs q.
Proof. intros fs p o1 o2 [|k| |k] q N; cbn [pnal_save snd]; rewrite ?fs_upd_other by exact N; reflexivity. Qed.

Lemma ok_pair : forall (A B : Type) (a c : A) (b d : B), Ok (a, b) = Ok (c, d) -> a = c /\ b = d.
Proof. intros A B a c b d H. split; congruence. Qed.

(** ** C24 *)

(** Round trip: what was saved is loaded, whatever the bytes. *)
Theorem C24_round_trip : forall fullsize fs dir f obj fs',
  file_save fullsize fs dir f obj SvOk = Ok (Some 0, fs') ->
  file_load fullsize fs' dir f (length obj) = Ok (Some obj).
Proof.
  intros fullsize fs dir f obj fs' H. rewrite file_save_spec in H. rewrite file_load_spec.
  destruct (fits fullsize dir f); [|discriminate H].
  apply ok_pair in H. destruct H as (_ & <-). rewrite fs_upd_same, content_load_own. reflexivity.
Qed.
Print Assumptions C24_round_trip.

(** A save that is cut at any byte (failure or power loss) leaves a file that is
    rejected, not a mixture. *)
Theorem C24_cut_file_rejected : forall fullsize fs dir f obj k e r fs',
  (e = SvFail k \/ e = SvCrash k) -> (k < 8 + length obj)%nat -> fits fullsize dir f = true ->
  file_save fullsize fs dir f obj e = Ok (r, fs') ->
  file_load fullsize fs' dir f (length obj) = Ok None.
Proof.
  intros fullsize fs dir f obj k e r fs' E K F H. rewrite file_save_spec, F in H. rewrite file_load_spec, F.
  destruct E as [-> | ->]; apply ok_pair in H; destruct H as (_ & <-); rewrite fs_upd_same, content_load_prefix;
  destruct (Nat.leb_spec (8 + length obj) k); try lia; reflexivity.
Qed.
Print Assumptions C24_cut_file_rejected.

(** A file is accepted only if it starts with the bytes "PNET", 0, 0, 0, 1 and is
    long enough, and then the object is the bytes after this header. *)
Theorem C24_accepted_files : forall fullsize fs dir f size c,
  fs (spec_path dir f) = Some c -> Forall (fun b => 0 <= b < 256) c ->
  forall o, file_load fullsize fs dir f size = Ok (Some o) ->
  exists rest, c = [80; 78; 69; 84; 0; 0; 0; 1] ++ o ++ rest /\ length o = size.
Proof.
  intros fullsize fs dir f size c E R o H. rewrite file_load_spec in H.
  destruct (fits fullsize dir f); [|discriminate H]. rewrite E in H. unfold content_load in H.
  destruct (Nat.ltb_spec (length c) (8 + size)) as [L|L]; [discriminate H|].
  destruct (Z.eqb_spec (get_be32 (firstn 8 c) 0) file_magic) as [M|M]; cbn [negb] in H; [|discriminate H].
  destruct (Z.eqb_spec (get_be32 (firstn 8 c) 4) file_version) as [V|V]; cbn [negb] in H; [|discriminate H].
  assert (Ho : o = firstn size (skipn 8 c)) by congruence. clear H.
  do 8 (destruct c as [|? c]; [cbn [length] in L; lia|]).
  cbn [firstn skipn] in *.
  repeat match goal with H : Forall _ (_ :: _) |- _ => let a := fresh "B" in inversion H as [|? ? a ?]; subst; clear H end.
  cbv delta [get_be32] beta in M, V. cbn [nth plus] in M, V. unfold file_magic, file_version in *.
  rewrite !Z.shiftl_mul_pow2 in M, V by lia.
  change (2 ^ 24) with 16777216 in *. change (2 ^ 16) with 65536 in *. change (2 ^ 8) with 256 in *.
  exists (skipn size c). rewrite firstn_skipn. cbn [app]. split.
  - do 7 (f_equal; [lia|]). f_equal. lia.
  - rewrite firstn_length. cbn [length] in L. lia.
Qed.
Print Assumptions C24_accepted_files.

(** After any history of saves, conditional saves and deletions of any files in
    the directory, each of which may fail or be cut by power loss at any byte,
    loading a name gives the object of the last completed save, or nothing. *)
Theorem C24_history : forall fullsize dir ops f size fs', 
  Forall (same_size f size) ops -> fits fullsize dir f = true ->
  frun fullsize dir (fun _ => None) ops = Ok fs' ->
  file_load fullsize fs' dir f size = Ok (stored f ops).
Proof.
  intros fullsize dir ops f size fs' SS F. unfold stored. rewrite file_load_spec, F.
  assert (G : forall ops fs st, Forall (same_size f size) ops ->
    content_load (fs (spec_path dir f)) size = st ->
    frun fullsize dir fs ops = Ok fs' ->
    content_load (fs' (spec_path dir f)) size = fold_left (stored_step f) ops st).
  { clear ops SS. induction ops as [|o ops IH]; intros fs st SS C R.
    - cbn in *. congruence.
    - cbn [frun] in R. destruct (fstep fullsize dir fs o) as [fs1| |] eqn:St; [|discriminate R|discriminate R].
      cbn [obind] in R. inversion SS as [|x y S1 S2]; subst x y. cbn [fold_left].
      apply (IH fs1); [exact S2| |exact R]. clear IH R S2 SS.
      destruct o as [g obj e|g obj e|g]; cbn [fstep stored_step same_size] in *.
      + rewrite file_save_spec in St. cbn [obind] in St.
        destruct (list_eq_dec Z.eq_dec g f) as [->|NE].
        * rewrite F in St. assert (E1 : fs1 = snd (pnal_save fs (spec_path dir f) file_header obj e)) by congruence. subst fs1.
          specialize (S1 eq_refl). subst size. rewrite pnal_save_load, C. reflexivity.
        * destruct (fits fullsize dir g); [|cbn [snd] in St; congruence].
          assert (E1 : fs1 = snd (pnal_save fs (spec_path dir g) file_header obj e)) by congruence. subst fs1.
          rewrite pnal_save_other; [exact C|]. intros Q. apply spec_path_inj in Q. congruence.
      + unfold file_save_if_modified in St. rewrite file_load_spec in St. cbn [obind] in St.
        rewrite file_save_spec in St.
        destruct (list_eq_dec Z.eq_dec g f) as [->|NE].
        * rewrite F in St. specialize (S1 eq_refl). subst size. rewrite C in St.
          assert (Sv : forall (ret : Z) (r : outcome fsys),
            (do r <- (do r <- Ok (pnal_save fs (spec_path dir f) file_header obj e); let '(sv, fs') := r in
                Ok (match sv with None => None | Some v => Some (if negb (v =? 0) then -1 else ret) end, fs')); Ok (snd r)) = Ok fs1 ->
            content_load (fs1 (spec_path dir f)) (length obj) = stored_after obj e st).
          { intros ret _ Q. cbn [obind] in Q. 
            assert (E1 : fs1 = snd (pnal_save fs (spec_path dir f) file_header obj e)).
            { destruct (pnal_save fs (spec_path dir f) file_header obj e) as [a b]. cbn in *. congruence. }
            subst fs1. rewrite pnal_save_load, C. reflexivity. }
          destruct st as [old|].
          -- destruct (blist_eqb old obj) eqn:B; cbn [negb] in St.
             ++ change (0 =? 0) with true in St. cbn [obind snd] in St.
                apply blist_eqb_eq in B. destruct (list_eq_dec Z.eq_dec old obj); [|contradiction]. congruence.
             ++ change (1 =? 0) with false in St. cbv iota in St.
                destruct (list_eq_dec Z.eq_dec old obj) as [Q|_]; [apply blist_eqb_eq in Q; congruence|].
                apply (Sv 1 (Ok fs)). exact St.
          -- change (2 =? 0) with false in St. cbv iota in St. apply (Sv 2 (Ok fs)). exact St.
        * assert (D : fs1 = fs \/ fs1 = snd (pnal_save fs (spec_path dir g) file_header obj e)).
          { destruct (fits fullsize dir g).
            - destruct (match content_load (fs (spec_path dir g)) (length obj) with Some old => if negb (blist_eqb old obj) then 1 else 0 | None => 2 end =? 0);
              cbn [obind snd] in St; [left; congruence|].
              right. destruct (pnal_save fs (spec_path dir g) file_header obj e) as [a b]. cbn in *. congruence.
            - left. cbn in St. congruence. }
          destruct D as [-> | ->]; [exact C|].
          rewrite pnal_save_other; [exact C|]. intros Q. apply spec_path_inj in Q. congruence.
      + unfold file_clear in St. rewrite join_spec in St. cbn [obind] in St.
        destruct (list_eq_dec Z.eq_dec g f) as [->|NE].
        * rewrite F in St. assert (E1 : fs1 = fs_upd fs (spec_path dir f) None) by congruence. subst fs1.
          rewrite fs_upd_same. reflexivity.
        * destruct (fits fullsize dir g); [|congruence].
          assert (E1 : fs1 = fs_upd fs (spec_path dir g) None) by congruence. subst fs1.
          rewrite fs_upd_other; [exact C|]. intros Q. apply spec_path_inj in Q. congruence. }
  intros R. rewrite (G ops (fun _ => None) None SS eq_refl R). reflexivity.
Qed.
Print Assumptions C24_history.

(** The operations never fail an assertion or go out of a buffer. *)
Theorem C24_no_undefined_behaviour : forall fullsize dir ops fs, exists fs', frun fullsize dir fs ops = Ok fs'.
Proof.
  intros fullsize dir. induction ops as [|o ops IH]; intros fs; [eexists; reflexivity|].
  assert (D : exists fs1, fstep fullsize dir fs o = Ok fs1).
  { destruct o as [g obj e|g obj e|g]; cbn [fstep].
    - rewrite file_save_spec. eexists; reflexivity.
    - unfold file_save_if_modified. rewrite file_load_spec. cbn [obind]. rewrite file_save_spec.
      destruct (_ =? 0); cbn [obind]; [eexists; reflexivity|].
      destruct (if fits fullsize dir g then _ else _) as [a b]. eexists; reflexivity.
    - unfold file_clear. rewrite join_spec. cbn [obind]. destruct (fits fullsize dir g); eexists; reflexivity. }
  destruct D as (fs1 & D). cbn [frun]. rewrite D. apply IH.
Qed.
Print Assumptions C24_no_undefined_behaviour.

(** ** C25 *)

(** Return value and effect of pf_file_save_if_modified, for every file system,
    object and outcome [e] of the platform function. *)
Theorem C25_save_if_modified : forall fullsize fs dir f obj e old r fs',
  file_load fullsize fs dir f (length obj) = Ok old ->
  file_save_if_modified fullsize fs dir f obj e = Ok (r, fs') ->
  (old = Some obj /\ r = Some 0 /\ fs' = fs) \/
  (old <> Some obj /\ fits fullsize dir f = false /\ r = Some (-1) /\ fs' = fs) \/
  (old <> Some obj /\ fits fullsize dir f = true /\
   fs' = snd (pnal_save fs (spec_path dir f) file_header obj e) /\
   r = match e with
       | SvOk => Some (match old with Some _ => 1 | None => 2 end)
       | SvFail _ | SvUntouched => Some (-1)
       | SvCrash _ => None
       end).
Proof.
  intros fullsize fs dir f obj e old r fs' L H. unfold file_save_if_modified in H. rewrite L in H. cbn [obind] in H.
  rewrite file_save_spec in H. rewrite file_load_spec in L.
  assert (N : forall ret, ret = 1 \/ ret = 2 ->
     (do r <- Ok (if fits fullsize dir f then pnal_save fs (spec_path dir f) file_header obj e else (Some (-1), fs)); let '(sv, fs') := r in
        Ok (match sv with None => None | Some v => Some (if negb (v =? 0) then -1 else ret) end, fs')) = Ok (r, fs') ->
     (fits fullsize dir f = false /\ r = Some (-1) /\ fs' = fs) \/
     (fits fullsize dir f = true /\ fs' = snd (pnal_save fs (spec_path dir f) file_header obj e) /\
      r = match e with SvOk => Some ret | SvFail _ | SvUntouched => Some (-1) | SvCrash _ => None end)).
  { intros ret _ Q. destruct (fits fullsize dir f).
    - right. split; [reflexivity|]. destruct e; cbn [obind pnal_save] in Q; apply ok_pair in Q; destruct Q as (<- & <-); split; reflexivity.
    - left. cbn [obind] in Q. apply ok_pair in Q. destruct Q as (<- & <-). auto. }
  destruct old as [o|].
  - destruct (blist_eqb o obj) eqn:B; cbn [negb] in H.
    + apply blist_eqb_eq in B. subst o. change (0 =? 0) with true in H. cbv iota in H. apply ok_pair in H. destruct H as (<- & <-). left. auto.
    + right. assert (NO : Some o <> Some obj) by (intros Q; injection Q as Q; apply blist_eqb_eq in Q; congruence).
      change (1 =? 0) with false in H. cbv iota in H.
      destruct (N 1 (or_introl eq_refl) H) as [(A & B1 & C)|(A & B1 & C)]; [left|right]; auto.
  - change (2 =? 0) with false in H. cbv iota in H. right.
    destruct (N 2 (or_intror eq_refl) H) as [(A & B1 & C)|(A & B1 & C)]; [left|right]; repeat split; auto; discriminate.
Qed.
Print Assumptions C25_save_if_modified.

(** After a return value of 0, 1 or 2 the stored object is the given one. *)
Theorem C25_stored_after_success : forall fullsize fs dir f obj e r fs',
  file_save_if_modified fullsize fs dir f obj e = Ok (Some r, fs') -> 0 <= r ->
  file_load fullsize fs' dir f (length obj) = Ok (Some obj).
Proof.
  intros fullsize fs dir f obj e r fs' H R.
  pose proof (file_load_spec fullsize fs dir f (length obj)) as L.
  destruct (C25_save_if_modified _ _ _ _ _ _ _ _ _ L H) as [(A & _ & B)|[(A & F & B & C)|(A & F & B & C)]].
  - subst fs'. rewrite file_load_spec. rewrite A. reflexivity.
  - injection B as ->. lia.
  - subst fs'. rewrite file_load_spec, F. destruct e; try discriminate C; try (injection C as ->; lia).
    rewrite pnal_save_load. reflexivity.
Qed.
Print Assumptions C25_stored_after_success.

(** ** C43 *)

(** Joining directory and name stays inside the buffer and gives the right path;
    it is refused exactly if the name is empty or the result may not fit. *)
Theorem C43_join : forall size dir fname,
  join dir fname size = Ok (if fits size dir fname then Some (spec_path dir fname) else None) /\
  (fits size dir fname = true -> (length (spec_path dir fname) < size)%nat).
Proof.
  intros size dir fname. split; [apply join_spec|]. unfold fits. intros F.
  apply andb_true_iff in F. destruct F as (_ & F).
  destruct dir as [[|c d]|]; apply Nat.leb_le in F; unfold spec_path; [lia| |lia].
  destruct (last (c :: d) 0 =? slash); rewrite !app_length; cbn [length] in *; lia.
Qed.
Print Assumptions C43_join.

(** Different names in one directory are different files. *)
Theorem C43_distinct_files : forall dir f g, f <> g -> spec_path dir f <> spec_path dir g.
Proof. intros dir f g N H. apply N. apply spec_path_inj with dir. exact H. Qed.
Print Assumptions C43_distinct_files.

(** Non-vacuity: a directory, two files, a crash. *)
Example ex_files : exists fs',
  frun 50 (Some [47; 100]) (fun _ => None)
    [FSave [97] [1; 2] SvOk; FSaveIfMod [98] [3] SvOk; FSaveIfMod [97] [1; 4] (SvCrash 9)] = Ok fs' /\
  file_load 50 fs' (Some [47; 100]) [97] 2 = Ok None /\
  file_load 50 fs' (Some [47; 100]) [98] 1 = Ok (Some [3]).
Proof. eexists. split; [reflexivity|]. split; reflexivity. Qed.
