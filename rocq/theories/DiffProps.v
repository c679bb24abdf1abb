(** Module differences (C113, C115). *)
From Coq Require Import List ZArith Arith Bool Lia.
From Verif Require Import Base BlockModel IdentModel IdentProps DiffModel.
Import ListNotations.
Local Open Scope Z_scope.

(** * Specification *)

(** What a controller expects: APIs with modules (slot, ident number) with submodules
    (subslot, ident number). *)
Definition csub : Type := Z * Z.
Definition cmod : Type := Z * Z * list csub.
Definition capi : Type := Z * list cmod.

Definition csub_of (e : xsub) : csub := (xs_num e, xs_ident e).
Definition cmod_of (m : xmod) : cmod := (xm_num m, xm_ident m, map csub_of (firstn (xm_n m) (xm_subs m))).
Definition capi_of (a : xapi) : capi := (xa_num a, map cmod_of (firstn (xa_n a) (xa_mods a))).
Definition conf (i : xid) : list capi := map capi_of (firstn (xi_n i) (xi_apis i)).

(** What can be different about a submodule, and how this is told. *)
Inductive verdict := Missing | Other | Locked | Diagnosed (fault dem req : bool).
Definition told_as (v : verdict) : xstate :=
  match v with
  | Missing => mkXstate 0 false false false false ar_own id_no true
  | Other => mkXstate 0 false false false false ar_own id_wrong true
  | Locked => mkXstate 0 false false false false ar_locked_by_ioc id_ok true
  | Diagnosed f m r => mkXstate 0 false r m f ar_own id_ok true
  end.

(** A difference: a submodule with its state, a module with its state and submodules, an
    API with modules. *)
Definition dsub : Type := Z * Z * xstate.
Definition dmod : Type := Z * Z * Z * list dsub.
Definition dapi : Type := Z * list dmod.

Definition opt {A} (o : option A) : list A := match o with Some x => [x] | None => [] end.

(** Held by a connection other than [me]. *)
Definition held_by_other (me : nat) (z : rsub) : bool :=
  match rs_own z with
  | Ioc | Ios => match rs_owner z with Some o => negb (o =? me)%nat | None => true end
  | _ => false
  end.
Definition compare_sub (d : dev) (me : nat) (a s : Z) (e : csub) : option verdict :=
  match sub_in d a s (fst e) with
  | None => Some Missing
  | Some z =>
    if negb (rs_ident z =? snd e) then Some Other
    else if held_by_other me z then Some Locked
    else if rs_fault z || rs_dem z || rs_req z then Some (Diagnosed (rs_fault z) (rs_dem z) (rs_req z))
    else None
  end.
Definition dsub_of (e : csub) (v : verdict) : dsub := (fst e, snd e, told_as v).
Definition compare_subs (d : dev) (me : nat) (a s : Z) (l : list csub) : list dsub :=
  flat_map (fun e => opt (option_map (dsub_of e) (compare_sub d me a s e))) l.
Definition compare_mod (d : dev) (me : nat) (a : Z) (m : cmod) : option dmod :=
  let '(s, id, l) := m in
  match mod_at d a s with
  | None => Some (s, id, no_module, [])
  | Some id' =>
    if negb (id' =? id) then Some (s, id, substitute, map (fun e => dsub_of e Other) l)
    else match compare_subs d me a s l with [] => None | l' => Some (s, id, proper_module, l') end
  end.
Definition compare_api (d : dev) (me : nat) (x : capi) : option dapi :=
  match flat_map (fun m => opt (compare_mod d me (fst x) m)) (snd x) with [] => None | l => Some (fst x, l) end.
Definition compare (d : dev) (me : nat) (l : list capi) : list dapi := flat_map (fun x => opt (compare_api d me x)) l.

(** What is found in the structure: the elements the lists of differences point to. *)
Definition chosen {A} (arr : list A) (diff : list nat) (nd : nat) : list A := flat_map (fun k => opt (nth_error arr k)) (firstn nd diff).
Definition dsub_at (e : xsub) : dsub := (xs_num e, xs_ident e, xs_state e).
Definition dmod_at (m : xmod) : dmod := (xm_num m, xm_ident m, xm_state m, map dsub_at (chosen (xm_subs m) (xm_diff m) (xm_nd m))).
Definition dapi_at (a : xapi) : dapi := (xa_num a, map dmod_at (chosen (xa_mods a) (xa_diff a) (xa_nd a))).
Definition listing (i : xid) : list dapi := map dapi_at (chosen (xi_apis i) (xi_diff i) (xi_nd i)).

(** The arrays have their sizes and the counters are inside. *)
Definition mod_sizes (nt : nat) (m : xmod) : Prop := length (xm_subs m) = nt /\ length (xm_diff m) = nt /\ (xm_n m <= nt)%nat.
Definition api_sizes (ns nt : nat) (a : xapi) : Prop :=
  length (xa_mods a) = ns /\ length (xa_diff a) = ns /\ (xa_n a <= ns)%nat /\ forall m, In m (xa_mods a) -> mod_sizes nt m.
Definition sizes (na ns nt : nat) (i : xid) : Prop :=
  length (xi_apis i) = na /\ length (xi_diff i) = na /\ (xi_n i <= na)%nat /\ forall a, In a (xi_apis i) -> api_sizes ns nt a.

(** All the lists of differences that are used point to elements. *)
Definition pointing {A} (arr : list A) (diff : list nat) (nd : nat) : Prop :=
  (nd <= length diff)%nat /\ forall k, In k (firstn nd diff) -> (k < length arr)%nat.
Definition pointing_all (i : xid) : Prop :=
  pointing (xi_apis i) (xi_diff i) (xi_nd i) /\
  forall a, In a (chosen (xi_apis i) (xi_diff i) (xi_nd i)) -> pointing (xa_mods a) (xa_diff a) (xa_nd a) /\
    forall m, In m (chosen (xa_mods a) (xa_diff a) (xa_nd a)) -> pointing (xm_subs m) (xm_diff m) (xm_nd m).

(** The part of the expectation the code looks at: APIs that exist, without modules
    whose slot has another module. *)
Definition not_wrong (d : dev) (a : Z) (m : cmod) : bool :=
  let '(s, id, _) := m in match mod_at d a s with None => true | Some id' => id' =? id end.
Definition seen (d : dev) (l : list capi) : list capi :=
  map (fun x => (fst x, filter (not_wrong d (fst x)) (snd x))) (filter (fun x => existsb (Z.eqb (fst x)) (apis d)) l).

(** * The loops *)

Lemma set_nth_split : forall A (pre : list A) x post v, set_nth (pre ++ x :: post) (length pre) v = pre ++ v :: post.
Proof.
  intros A pre x post v. unfold set_nth. rewrite firstn_app, Nat.sub_diag, firstn_all, firstn_O, app_nil_r. f_equal. f_equal.
  induction pre as [|y pre IH]; [reflexivity|]. exact IH.
Qed.
Lemma aget_split : forall A (pre : list A) x post, aget (pre ++ x :: post) (length pre) = Ok x.
Proof. intros A pre x post. unfold aget. rewrite nth_error_app2 by lia. rewrite Nat.sub_diag. reflexivity. Qed.
Lemma aset_split : forall A (pre : list A) x post v, aset (pre ++ x :: post) (length pre) v = Ok (pre ++ v :: post).
Proof.
  intros A pre x post v. unfold aset. replace (length pre <? length (pre ++ x :: post))%nat with true.
  - rewrite set_nth_split. reflexivity.
  - symmetry. apply Nat.ltb_lt. rewrite app_length. cbn [length]. lia.
Qed.
Lemma set_nth_len : forall A (l : list A) i v, (i < length l)%nat -> length (set_nth l i v) = length l.
Proof. intros A l i v H. unfold set_nth. rewrite app_length, firstn_length. cbn [length]. rewrite skipn_length. lia. Qed.
Lemma firstn_S_set : forall A (l : list A) i v, (i < length l)%nat -> firstn (S i) (set_nth l i v) = firstn i l ++ [v].
Proof.
  intros A l i v H. unfold set_nth. rewrite firstn_app, firstn_length, Nat.min_l by lia.
  replace (S i - i)%nat with 1%nat by lia. rewrite firstn_firstn, Nat.min_r by lia. reflexivity.
Qed.

(** The common shape of the loops: each element is replaced, and its index is added to the
    list of differences or not. *)
Section Loop.
Variable A : Type.
Variable g : A -> outcome (A * bool).
Fixpoint loop (n ix : nat) (arr : list A) (nd : nat) (diff : list nat) : outcome (list A * nat * list nat) :=
  match n with
  | O => Ok (arr, nd, diff)
  | S n =>
    do e <- aget arr ix;
    do (e1, b) <- g e;
    do arr1 <- aset arr ix e1;
    if b then do diff1 <- aset diff nd ix; loop n (S ix) arr1 (S nd) diff1 else loop n (S ix) arr1 nd diff
  end.
Definition val (e : A) : A * bool := match g e with Ok r => r | _ => (e, false) end.
Definition defined (e : A) : Prop := exists r, g e = Ok r.

Fixpoint places (k : nat) (l : list A) : list nat :=
  match l with [] => [] | e :: l => (if snd (val e) then [k] else []) ++ places (S k) l end.

Lemma loop_eq : forall seg pre post nd diff, (forall e, In e seg -> defined e) -> (nd <= length pre)%nat ->
  (length pre + length seg <= length diff)%nat ->
  exists diff', loop (length seg) (length pre) (pre ++ seg ++ post) nd diff =
    Ok (pre ++ map (fun e => fst (val e)) seg ++ post, (nd + length (filter (fun e => snd (val e)) seg))%nat, diff') /\
    length diff' = length diff /\
    firstn (nd + length (filter (fun e => snd (val e)) seg)) diff' = firstn nd diff ++ places (length pre) seg.
Proof.
  induction seg as [|e seg IH]; intros pre post nd diff D N L.
  - exists diff. cbn [length loop map app filter]. rewrite Nat.add_0_r. split; [reflexivity|]. split; [reflexivity|]. cbn [places]. rewrite app_nil_r. reflexivity.
  - cbn [length loop app]. rewrite aget_split. cbn [obind].
    destruct (D e (or_introl eq_refl)) as ([e1 b] & G). rewrite G. cbn [obind].
    assert (V : val e = (e1, b)) by (unfold val; rewrite G; reflexivity).
    rewrite aset_split. cbn [obind]. cbn [map filter places]. rewrite V. cbn [fst snd].
    assert (D' : forall e, In e seg -> defined e) by (intros x I; apply D; right; exact I).
    assert (PRE : (pre ++ e1 :: seg ++ post) = ((pre ++ [e1]) ++ seg ++ post)) by (rewrite <- app_assoc; reflexivity).
    assert (LEN : S (length pre) = length (pre ++ [e1])) by (rewrite app_length; cbn [length]; lia).
    cbn [length] in L. destruct b.
    + assert (W : aset diff nd (length pre) = Ok (set_nth diff nd (length pre))).
      { unfold aset. replace (nd <? length diff)%nat with true by (symmetry; apply Nat.ltb_lt; lia). reflexivity. }
      rewrite W. cbn [obind]. rewrite PRE, LEN.
      assert (LD : length (set_nth diff nd (length pre)) = length diff) by (apply set_nth_len; lia).
      destruct (IH (pre ++ [e1]) post (S nd) (set_nth diff nd (length pre)) D' ltac:(rewrite <- LEN; lia) ltac:(rewrite LD, <- LEN; lia)) as (diff' & E1 & E2 & E3).
      assert (Q : (nd + length (e :: filter (fun e0 => snd (val e0)) seg) = S nd + length (filter (fun e0 => snd (val e0)) seg))%nat) by (cbn [length]; lia).
      rewrite Q. exists diff'. rewrite E1. split; [rewrite <- app_assoc; reflexivity|]. split; [lia|].
      rewrite E3, firstn_S_set by lia. rewrite <- app_assoc. reflexivity.
    + rewrite PRE, LEN. destruct (IH (pre ++ [e1]) post nd diff D' ltac:(rewrite <- LEN; lia) ltac:(rewrite <- LEN; lia)) as (diff' & E1 & E2 & E3).
      exists diff'. rewrite E1. split; [rewrite <- app_assoc; reflexivity|]. split; [exact E2|].
      rewrite E3. reflexivity.
Qed.

Lemma places_lt : forall l k p, In p (places k l) -> (k <= p < k + length l)%nat.
Proof.
  induction l as [|e l IH]; intros k p I; cbn [places length] in *; [destruct I|]. apply in_app_iff in I. destruct I as [I|I].
  - destruct (snd (val e)); cbn [In] in I; [destruct I as [I|[]]; lia|destruct I].
  - specialize (IH _ _ I). lia.
Qed.

Lemma places_chosen : forall B (f : A -> B) seg pre post,
  flat_map (fun k => opt (nth_error (pre ++ map f seg ++ post) k)) (places (length pre) seg) = map f (filter (fun e => snd (val e)) seg).
Proof.
  intros B f. induction seg as [|e seg IH]; intros pre post; [reflexivity|]. cbn [places map filter].
  specialize (IH (pre ++ [f e]) post). rewrite app_length in IH. cbn [length] in IH. rewrite Nat.add_1_r in IH.
  rewrite <- app_assoc in IH. cbn [app] in IH. cbn [app] in *.
  destruct (snd (val e)).
  - cbn [app flat_map map]. rewrite IH. rewrite nth_error_app2, Nat.sub_diag by lia. reflexivity.
  - exact IH.
Qed.

(** The whole loop. *)
Lemma loop_all : forall n arr diff, (n <= length arr)%nat -> length diff = length arr -> (forall e, In e (firstn n arr) -> defined e) ->
  let arr' := map (fun e => fst (val e)) (firstn n arr) ++ skipn n arr in
  exists nd diff', loop n 0 arr 0 diff = Ok (arr', nd, diff') /\ length diff' = length diff /\
    nd = length (filter (fun e => snd (val e)) (firstn n arr)) /\ pointing arr' diff' nd /\
    chosen arr' diff' nd = map (fun e => fst (val e)) (filter (fun e => snd (val e)) (firstn n arr)).
Proof.
  intros n arr diff L LD D arr'.
  assert (LS : length (firstn n arr) = n) by (rewrite firstn_length; lia).
  destruct (loop_eq (firstn n arr) [] (skipn n arr) 0%nat diff D ltac:(cbn [length]; lia) ltac:(cbn [length]; lia)) as (diff' & E1 & E2 & E3).
  cbn [app length Nat.add] in E1, E3. rewrite firstn_skipn, LS in E1. fold arr' in E1.
  eexists. exists diff'. split; [exact E1|]. split; [exact E2|]. split; [reflexivity|]. cbn [firstn app] in E3. split.
  - split.
    + rewrite E2, LD. pose proof (filter_length_le _ (fun e => snd (val e)) (firstn n arr)). lia.
    + intros k I. rewrite E3 in I. apply places_lt in I. unfold arr'. rewrite app_length, map_length, LS. cbn [length] in I. lia.
  - unfold chosen. rewrite E3. exact (places_chosen A (fun e => fst (val e)) (firstn n arr) [] (skipn n arr)).
Qed.
End Loop.

Lemma arr_length : forall A (f : A -> A) n l, length (map f (firstn n l) ++ skipn n l) = length l.
Proof. intros A f n l. rewrite app_length, map_length, firstn_length, skipn_length. lia. Qed.
Lemma arr_first : forall A B (f : A -> A) (h : A -> B) n l, (n <= length l)%nat -> (forall e, In e (firstn n l) -> h (f e) = h e) ->
  map h (firstn n (map f (firstn n l) ++ skipn n l)) = map h (firstn n l).
Proof.
  intros A B f h n l G H. rewrite firstn_app, map_length, firstn_length, Nat.min_l, Nat.sub_diag, firstn_O, app_nil_r by lia.
  rewrite firstn_all2 by (rewrite map_length, firstn_length; lia). rewrite map_map. apply map_ext_in. exact H.
Qed.
Lemma arr_in : forall A (f : A -> A) n l (P : A -> Prop), (forall e, In e l -> P e) -> (forall e, In e (firstn n l) -> P (f e)) ->
  forall e, In e (map f (firstn n l) ++ skipn n l) -> P e.
Proof.
  intros A f n l P H G e I. apply in_app_iff in I. destruct I as [I|I].
  - apply in_map_iff in I. destruct I as (x & <- & I). apply G. exact I.
  - apply H. rewrite <- (firstn_skipn n l). apply in_app_iff. right. exact I.
Qed.
Lemma in_firstn : forall A n (l : list A) e, In e (firstn n l) -> In e l.
Proof. intros A n l e I. rewrite <- (firstn_skipn n l). apply in_app_iff. left. exact I. Qed.

(** * One module *)

Definition with_subs (m : xmod) (l : list xsub) (nd : nat) (diff : list nat) : xmod :=
  mkXmod (xm_num m) (xm_ident m) (xm_state m) (xm_n m) l nd diff.
Definition gsub (me : nat) (r : rslot) (e : xsub) : outcome (xsub * bool) :=
  Ok (mkXsub (xs_num e) (xs_ident e) (fst (judge me (get_sub r (xs_num e)) e)), snd (judge me (get_sub r (xs_num e)) e)).

Lemma with_subs_same : forall m, with_subs m (xm_subs m) (xm_nd m) (xm_diff m) = m.
Proof. intros []; reflexivity. Qed.

Lemma diff_subs_loop : forall me r n s m, diff_subs me r n s m =
  do (p, diff) <- loop _ (gsub me r) n s (xm_subs m) (xm_nd m) (xm_diff m); Ok (with_subs m (fst p) (snd p) diff).
Proof.
  intros me r n. induction n as [|n IH]; intros s m; cbn [diff_subs loop obind fst snd]; [rewrite with_subs_same; reflexivity|].
  destruct (aget (xm_subs m) s) as [e| |]; cbn [obind]; try reflexivity. unfold gsub at 1.
  destruct (judge me (get_sub r (xs_num e)) e) as [st b]. cbn [obind fst snd]. unfold put_sub.
  destruct (aset (xm_subs m) s (mkXsub (xs_num e) (xs_ident e) st)) as [l| |]; cbn [obind]; try reflexivity. destruct b.
  - unfold push_sub, set_mdiff. cbn [xm_diff xm_nd]. destruct (aset (xm_diff m) (xm_nd m) s) as [dl| |]; cbn [obind]; try reflexivity.
    rewrite IH. reflexivity.
  - cbn [obind]. rewrite IH. reflexivity.
Qed.

Lemma wrong_subs_ok : forall n s m, (s + n <= length (xm_subs m))%nat -> length (xm_diff m) = length (xm_subs m) ->
  exists m', wrong_subs n s m = Ok m' /\ xm_num m' = xm_num m /\ xm_ident m' = xm_ident m /\ xm_n m' = xm_n m /\
    length (xm_subs m') = length (xm_subs m) /\ length (xm_diff m') = length (xm_diff m) /\
    map csub_of (xm_subs m') = map csub_of (xm_subs m).
Proof.
  induction n as [|n IH]; intros s m L D; cbn [wrong_subs]; [exists m; auto 10|].
  unfold aget. destruct (nth_error (xm_subs m) s) as [e|] eqn:E; [|apply nth_error_None in E; lia]. cbn [obind].
  unfold put_sub, aset. replace (s <? length (xm_subs m))%nat with true by (symmetry; apply Nat.ltb_lt; lia). cbn [obind].
  unfold set_mdiff, aset. cbn [xm_diff xm_nd]. replace (s <? length (xm_diff m))%nat with true by (symmetry; apply Nat.ltb_lt; lia). cbn [obind xm_num xm_ident xm_state xm_n xm_subs].
  match goal with |- context [wrong_subs n (S s) ?x] => destruct (IH (S s) x) as (m' & H1 & H2 & H3 & H4 & H5 & H6 & H7) end.
  - cbn [xm_subs]. rewrite set_nth_len by lia. lia.
  - cbn [xm_subs xm_diff]. rewrite !set_nth_len by lia. exact D.
  - cbn [xm_subs xm_diff xm_num xm_ident xm_n] in *. rewrite set_nth_len in H5, H6 by lia.
    exists m'. split; [exact H1|]. split; [exact H2|]. split; [exact H3|]. split; [exact H4|]. split; [exact H5|]. split; [exact H6|].
    rewrite H7. destruct (nth_error_split _ _ E) as (l1 & l2 & Q1 & Q2). rewrite Q1, <- Q2, set_nth_split, !map_app. reflexivity.
Qed.

Lemma firstn_map_eq : forall A B (f : A -> B) n l l', map f l = map f l' -> map f (firstn n l) = map f (firstn n l').
Proof. intros A B f n l l' H. rewrite <- !firstn_map, H. reflexivity. Qed.

Lemma judge_compare : forall na ns nt d me a s y e, dev_ok na ns nt d -> slot d a s = Some y ->
  opt (if snd (judge me (get_sub y (xs_num e)) e) then Some (xs_num e, xs_ident e, fst (judge me (get_sub y (xs_num e)) e)) else None) =
  opt (option_map (dsub_of (csub_of e)) (compare_sub d me a s (csub_of e))).
Proof.
  intros na ns nt d me a s y e D Y. unfold compare_sub. cbn [csub_of fst snd]. rewrite (sub_in_cell na ns nt d a s _ D), cell_slot, Y.
  unfold judge. destruct (get_sub y (xs_num e)) as [z|]; [|reflexivity]. rewrite (Z.eqb_sym (rs_ident z)).
  destruct (xs_ident e =? rs_ident z); cbn [negb]; [|reflexivity].
  assert (Q : owned z && negb (match rs_owner z with Some o => (o =? me)%nat | None => false end) = held_by_other me z).
  { unfold owned, held_by_other. destruct (rs_own z); try reflexivity; destruct (rs_owner z); reflexivity. }
  rewrite Q. destruct (held_by_other me z); [reflexivity|].
  destruct (rs_fault z || rs_dem z || rs_req z); reflexivity.
Qed.

Lemma flat_opt_filter : forall A B (p : A -> bool) (f : A -> B) l, flat_map (fun e => opt (if p e then Some (f e) else None)) l = map f (filter p l).
Proof. intros A B p f l. induction l as [|e l IH]; [reflexivity|]. cbn [flat_map filter]. rewrite IH. destruct (p e); reflexivity. Qed.
Lemma flat_map_ext_in : forall A B (f g : A -> list B) l, (forall e, In e l -> f e = g e) -> flat_map f l = flat_map g l.
Proof. intros A B f g l H. induction l as [|e l IH]; [reflexivity|]. cbn [flat_map]. rewrite H by (left; reflexivity). rewrite IH by (intros x I; apply H; right; exact I). reflexivity. Qed.
Lemma flat_map_map : forall A B C (f : A -> B) (g : B -> list C) l, flat_map g (map f l) = flat_map (fun e => g (f e)) l.
Proof. intros A B C f g l. induction l as [|e l IH]; [reflexivity|]. cbn [map flat_map]. rewrite IH. reflexivity. Qed.

Lemma diff_mod_ok : forall na ns nt d me a r m, dev_ok na ns nt d -> get_api d a = Some r -> mod_sizes nt m ->
  exists m' b, diff_mod me r m = Ok (m', b) /\ mod_sizes nt m' /\ cmod_of m' = cmod_of m /\
    (b = true -> pointing (xm_subs m') (xm_diff m') (xm_nd m')) /\
    opt (if b then Some (dmod_at m') else None) = if not_wrong d a (cmod_of m) then opt (compare_mod d me a (cmod_of m)) else [].
Proof.
  intros na ns nt d me a r m D G (L1 & L2 & L3). unfold diff_mod.
  assert (SL : slot d a (xm_num m) = get_slot r (xm_num m)) by (unfold slot; rewrite G; reflexivity).
  assert (MA : mod_at d a (xm_num m) = option_map rl_ident (get_slot r (xm_num m))) by (rewrite (mod_at_slot na ns nt d a _ D), SL; reflexivity).
  unfold cmod_of at 2 3 4. unfold not_wrong, compare_mod. rewrite MA. destruct (get_slot r (xm_num m)) as [y|]; cbn [option_map].
  - rewrite (Z.eqb_sym (rl_ident y)). destruct (xm_ident m =? rl_ident y) eqn:I; cbn [negb].
    + rewrite diff_subs_loop. cbn [m_state m_nd xm_subs xm_nd xm_diff xm_n].
      destruct (loop_all _ (gsub me y) (xm_n m) (xm_subs m) (xm_diff m) ltac:(lia) ltac:(lia)) as (nd & diff' & E1 & E2 & E3 & E4 & E5).
      { intros e _. eexists. reflexivity. }
      rewrite E1. cbn [obind fst snd].
      eexists. eexists. split; [reflexivity|]. unfold with_subs. cbn [xm_subs xm_diff xm_nd xm_n xm_num xm_ident m_state m_nd xm_state]. split; [|split; [|split]].
      * split; [cbn [xm_subs]; rewrite arr_length; exact L1|]. split; [cbn [xm_diff]; lia|exact L3].
      * unfold cmod_of. cbn [xm_subs xm_n xm_num xm_ident]. f_equal. apply arr_first; [lia|]. intros e _. reflexivity.
      * intros _. exact E4.
      * unfold dmod_at. cbn [xm_subs xm_diff xm_nd xm_n xm_num xm_ident xm_state]. rewrite E5.
        assert (Q : compare_subs d me a (xm_num m) (map csub_of (firstn (xm_n m) (xm_subs m))) =
          map dsub_at (map (fun e => fst (val _ (gsub me y) e)) (filter (fun e => snd (val _ (gsub me y) e)) (firstn (xm_n m) (xm_subs m))))).
        { unfold compare_subs. rewrite flat_map_map, map_map, <- flat_opt_filter. apply flat_map_ext_in. intros e _.
          rewrite <- (judge_compare na ns nt d me a (xm_num m) y e D SL). reflexivity. }
        rewrite Q. rewrite E3. destruct (filter (fun e => snd (val _ (gsub me y) e)) (firstn (xm_n m) (xm_subs m))) as [|e l]; reflexivity.
    + destruct (wrong_subs_ok (xm_n m) 0 (m_nd (xm_n m) (m_state substitute (m_nd 0 m))) ltac:(cbn [xm_subs m_nd m_state]; lia) ltac:(cbn [xm_subs xm_diff m_nd m_state]; lia))
        as (m' & H1 & H2 & H3 & H4 & H5 & H6 & H7).
      rewrite H1. cbn [obind]. exists m', false. cbn [m_nd m_state xm_num xm_ident xm_n xm_subs xm_diff] in *.
      split; [reflexivity|]. split; [split; [lia|split; lia]|]. split; [|split; [discriminate|reflexivity]].
      unfold cmod_of. rewrite H2, H3, H4. f_equal. apply firstn_map_eq. exact H7.
  - eexists. exists true. split; [reflexivity|]. split; [split; [exact L1|split; [exact L2|exact L3]]|]. split; [reflexivity|]. split; [|reflexivity].
    intros _. split; [cbn [m_state m_nd xm_nd]; lia|]. cbn [m_state m_nd xm_nd firstn]. intros k [].
Qed.

(** * One API *)

Definition with_mods (a : xapi) (l : list xmod) (nd : nat) (diff : list nat) : xapi := mkXapi (xa_num a) (xa_n a) l nd diff.
Lemma with_mods_same : forall a, with_mods a (xa_mods a) (xa_nd a) (xa_diff a) = a.
Proof. intros []; reflexivity. Qed.
Lemma diff_mods_loop : forall me r n ix a, diff_mods me r n ix a =
  do (p, diff) <- loop _ (diff_mod me r) n ix (xa_mods a) (xa_nd a) (xa_diff a); Ok (with_mods a (fst p) (snd p) diff).
Proof.
  intros me r n. induction n as [|n IH]; intros ix a; cbn [diff_mods loop obind fst snd]; [rewrite with_mods_same; reflexivity|].
  destruct (aget (xa_mods a) ix) as [m| |]; cbn [obind]; try reflexivity.
  destruct (diff_mod me r m) as [[m1 b]| |]; cbn [obind]; try reflexivity. unfold put_mod.
  destruct (aset (xa_mods a) ix m1) as [l| |]; cbn [obind]; try reflexivity. destruct b.
  - unfold push_mod, set_adiff. cbn [xa_diff xa_nd]. destruct (aset (xa_diff a) (xa_nd a) ix) as [dl| |]; cbn [obind]; try reflexivity.
    rewrite IH. reflexivity.
  - cbn [obind]. rewrite IH. reflexivity.
Qed.

Lemma miss_mods_ok : forall ns nt n s a, (s + n <= length (xa_mods a))%nat -> api_sizes ns nt a ->
  exists a', miss_mods n s a = Ok a' /\ capi_of a' = capi_of a /\ api_sizes ns nt a'.
Proof.
  intros ns nt. induction n as [|n IH]; intros s a L (S1 & S2 & S3 & S4); cbn [miss_mods]; [exists a; split; [reflexivity|]; split; [reflexivity|]; split; auto|].
  unfold aget. destruct (nth_error (xa_mods a) s) as [m|] eqn:E; [|apply nth_error_None in E; lia]. cbn [obind].
  unfold put_mod, aset. replace (s <? length (xa_mods a))%nat with true by (symmetry; apply Nat.ltb_lt; lia). cbn [obind].
  unfold set_adiff, aset. cbn [xa_diff xa_nd]. replace (s <? length (xa_diff a))%nat with true by (symmetry; apply Nat.ltb_lt; lia). cbn [obind xa_num xa_n xa_mods].
  destruct (nth_error_split _ _ E) as (l1 & l2 & Q1 & Q2).
  assert (SN : set_nth (xa_mods a) s (m_nd 0 (m_state no_module m)) = l1 ++ m_nd 0 (m_state no_module m) :: l2) by (rewrite Q1, <- Q2; apply set_nth_split).
  rewrite SN.
  match goal with |- context [miss_mods n (S s) ?x] => destruct (IH (S s) x) as (a' & H1 & H2 & H3) end.
  - cbn [xa_mods]. rewrite Q1 in L. rewrite app_length in *. cbn [length] in *. lia.
  - split; [cbn [xa_mods]; rewrite <- S1, Q1, !app_length; reflexivity|]. split; [cbn [xa_diff]; rewrite set_nth_len by lia; exact S2|]. split; [exact S3|].
    cbn [xa_mods]. intros m' I. rewrite Q1 in S4. apply in_app_iff in I. destruct I as [I|[I|I]].
    + apply S4. apply in_app_iff. left. exact I.
    + subst m'. exact (S4 m ltac:(apply in_app_iff; right; left; reflexivity)).
    + apply S4. apply in_app_iff. right. right. exact I.
  - exists a'. split; [exact H1|]. split; [|exact H3]. rewrite H2. unfold capi_of. cbn [xa_num xa_n xa_mods]. f_equal.
    apply firstn_map_eq. rewrite Q1, !map_app. reflexivity.
Qed.

Lemma mods_loop_ok : forall ns nt g sp a, api_sizes ns nt a ->
  (forall m, In m (firstn (xa_n a) (xa_mods a)) -> mod_sizes nt m ->
    exists m' b, g m = Ok (m', b) /\ mod_sizes nt m' /\ cmod_of m' = cmod_of m /\ (b = true -> pointing (xm_subs m') (xm_diff m') (xm_nd m')) /\
      opt (if b then Some (dmod_at m') else None) = sp (cmod_of m)) ->
  exists l nd diff, loop _ g (xa_n a) 0 (xa_mods a) 0 (xa_diff a) = Ok (l, nd, diff) /\
    api_sizes ns nt (with_mods a l nd diff) /\ capi_of (with_mods a l nd diff) = capi_of a /\
    pointing l diff nd /\ (forall m, In m (chosen l diff nd) -> pointing (xm_subs m) (xm_diff m) (xm_nd m)) /\
    map dmod_at (chosen l diff nd) = flat_map sp (snd (capi_of a)) /\ nd = length (chosen l diff nd).
Proof.
  intros ns nt g sp a (S1 & S2 & S3 & S4) H.
  assert (HV : forall m, In m (firstn (xa_n a) (xa_mods a)) -> let '(m', b) := val _ g m in
    defined _ g m /\ mod_sizes nt m' /\ cmod_of m' = cmod_of m /\ (b = true -> pointing (xm_subs m') (xm_diff m') (xm_nd m')) /\
      opt (if b then Some (dmod_at m') else None) = sp (cmod_of m)).
  { intros m I. destruct (H m I (S4 m (in_firstn _ _ _ _ I))) as (m' & b & E & R). unfold val. rewrite E. split; [exists (m', b); exact E|exact R]. }
  destruct (loop_all _ g (xa_n a) (xa_mods a) (xa_diff a) ltac:(lia) ltac:(lia)) as (nd & diff & E1 & E2 & E3 & E4 & E5).
  { intros m I. specialize (HV m I). destruct (val _ g m). exact (proj1 HV). }
  eexists. exists nd, diff. split; [exact E1|]. unfold with_mods. split; [|split; [|split; [exact E4|split; [|split]]]].
  - split; [cbn [xa_mods]; rewrite arr_length; exact S1|]. split; [cbn [xa_diff]; lia|]. split; [exact S3|]. cbn [xa_mods].
    apply arr_in; [exact S4|]. intros m I. specialize (HV m I). destruct (val _ g m). exact (proj1 (proj2 HV)).
  - unfold capi_of. cbn [xa_num xa_n xa_mods]. f_equal. apply arr_first; [lia|]. intros m I. specialize (HV m I). destruct (val _ g m). exact (proj1 (proj2 (proj2 HV))).
  - intros m I. rewrite E5 in I. apply in_map_iff in I. destruct I as (m0 & <- & I). apply filter_In in I. destruct I as [I B].
    specialize (HV m0 I). destruct (val _ g m0). exact (proj1 (proj2 (proj2 (proj2 HV))) B).
  - rewrite E5. cbn [capi_of snd]. rewrite flat_map_map, map_map, <- flat_opt_filter. apply flat_map_ext_in. intros m I.
    specialize (HV m I). destruct (val _ g m) as [m' b]. cbn [fst snd]. exact (proj2 (proj2 (proj2 (proj2 HV)))).
  - rewrite E5, map_length. exact E3.
Qed.

(** * All APIs *)

Definition with_apis (i : xid) (l : list xapi) (nd : nat) (diff : list nat) : xid := mkXid (xi_n i) l nd diff.

Lemma apis_loop_ok : forall na ns nt g sp i, sizes na ns nt i ->
  (forall a, In a (firstn (xi_n i) (xi_apis i)) -> api_sizes ns nt a ->
    exists a' b, g a = Ok (a', b) /\ api_sizes ns nt a' /\ capi_of a' = capi_of a /\
      (b = true -> pointing (xa_mods a') (xa_diff a') (xa_nd a') /\
        forall m, In m (chosen (xa_mods a') (xa_diff a') (xa_nd a')) -> pointing (xm_subs m) (xm_diff m) (xm_nd m)) /\
      opt (if b then Some (dapi_at a') else None) = sp (capi_of a)) ->
  exists l nd diff, loop _ g (xi_n i) 0 (xi_apis i) 0 (xi_diff i) = Ok (l, nd, diff) /\
    sizes na ns nt (with_apis i l nd diff) /\ conf (with_apis i l nd diff) = conf i /\ pointing_all (with_apis i l nd diff) /\
    listing (with_apis i l nd diff) = flat_map sp (conf i).
Proof.
  intros na ns nt g sp i (S1 & S2 & S3 & S4) H.
  assert (HV : forall a, In a (firstn (xi_n i) (xi_apis i)) -> let '(a', b) := val _ g a in
    defined _ g a /\ api_sizes ns nt a' /\ capi_of a' = capi_of a /\
      (b = true -> pointing (xa_mods a') (xa_diff a') (xa_nd a') /\
        forall m, In m (chosen (xa_mods a') (xa_diff a') (xa_nd a')) -> pointing (xm_subs m) (xm_diff m) (xm_nd m)) /\
      opt (if b then Some (dapi_at a') else None) = sp (capi_of a)).
  { intros a I. destruct (H a I (S4 a (in_firstn _ _ _ _ I))) as (a' & b & E & R). unfold val. rewrite E. split; [exists (a', b); exact E|exact R]. }
  destruct (loop_all _ g (xi_n i) (xi_apis i) (xi_diff i) ltac:(lia) ltac:(lia)) as (nd & diff & E1 & E2 & E3 & E4 & E5).
  { intros a I. specialize (HV a I). destruct (val _ g a). exact (proj1 HV). }
  eexists. exists nd, diff. split; [exact E1|]. unfold with_apis. split; [|split; [|split]].
  - split; [cbn [xi_apis]; rewrite arr_length; exact S1|]. split; [cbn [xi_diff]; lia|]. split; [exact S3|]. cbn [xi_apis].
    apply arr_in; [exact S4|]. intros a I. specialize (HV a I). destruct (val _ g a). exact (proj1 (proj2 HV)).
  - unfold conf. cbn [xi_n xi_apis]. apply arr_first; [lia|]. intros a I. specialize (HV a I). destruct (val _ g a). exact (proj1 (proj2 (proj2 HV))).
  - split; [exact E4|]. cbn [xi_apis xi_diff xi_nd]. intros a I. rewrite E5 in I. apply in_map_iff in I. destruct I as (a0 & <- & I). apply filter_In in I. destruct I as [I B].
    specialize (HV a0 I). destruct (val _ g a0). exact (proj1 (proj2 (proj2 (proj2 HV))) B).
  - unfold listing. cbn [xi_apis xi_diff xi_nd]. rewrite E5. unfold conf. rewrite flat_map_map, map_map, <- flat_opt_filter. apply flat_map_ext_in. intros a I.
    specialize (HV a I). destruct (val _ g a) as [a' b]. cbn [fst snd]. exact (proj2 (proj2 (proj2 (proj2 HV)))).
Qed.

Definition gapi (me : nat) (d : dev) (a : xapi) : outcome (xapi * bool) :=
  match get_api d (xa_num a) with
  | None => do a1 <- miss_mods (xa_n a) 0 (a_nd (xa_n a) a); Ok (a1, false)
  | Some r => do a1 <- diff_mods me r (xa_n a) 0 (a_nd 0 a); Ok (a1, (0 <? xa_nd a1)%nat)
  end.

Lemma diff_apis_loop : forall me d n ix i, diff_apis me d n ix i =
  do (p, diff) <- loop _ (gapi me d) n ix (xi_apis i) (xi_nd i) (xi_diff i); Ok (with_apis i (fst p) (snd p) diff).
Proof.
  intros me d n. induction n as [|n IH]; intros ix i; cbn [diff_apis loop obind fst snd]; [destruct i; reflexivity|].
  destruct (aget (xi_apis i) ix) as [a| |]; cbn [obind]; try reflexivity. unfold gapi at 1.
  destruct (get_api d (xa_num a)) as [r|].
  - destruct (diff_mods me r (xa_n a) 0 (a_nd 0 a)) as [a1| |]; cbn [obind]; try reflexivity. unfold put_xapi.
    destruct (aset (xi_apis i) ix a1) as [l| |]; cbn [obind]; try reflexivity. destruct (0 <? xa_nd a1)%nat.
    + unfold push_api. cbn [xi_diff xi_nd]. destruct (aset (xi_diff i) (xi_nd i) ix) as [dl| |]; cbn [obind]; try reflexivity. rewrite IH. reflexivity.
    + cbn [obind]. rewrite IH. reflexivity.
  - destruct (miss_mods (xa_n a) 0 (a_nd (xa_n a) a)) as [a1| |]; cbn [obind]; try reflexivity. unfold put_xapi.
    destruct (aset (xi_apis i) ix a1) as [l| |]; cbn [obind]; try reflexivity. rewrite IH. reflexivity.
Qed.

Lemma existsb_in : forall a l, existsb (Z.eqb a) l = true <-> In a l.
Proof.
  intros a l. rewrite existsb_exists. split; [intros (x & I & E); apply Z.eqb_eq in E; subst; exact I|intros I; exists a; split; [exact I|apply Z.eqb_refl]].
Qed.

Lemma api_exists : forall d a, existsb (Z.eqb a) (apis d) = match get_api d a with Some _ => true | None => false end.
Proof.
  intros d a. destruct (get_api d a) as [r|] eqn:G.
  - apply existsb_in. apply in_apis. congruence.
  - destruct (existsb (Z.eqb a) (apis d)) eqn:E; [|reflexivity]. apply existsb_in in E. apply in_apis in E. congruence.
Qed.

Definition seen_api (d : dev) (me : nat) (x : capi) : list dapi :=
  if existsb (Z.eqb (fst x)) (apis d) then opt (compare_api d me (fst x, filter (not_wrong d (fst x)) (snd x))) else [].

Lemma flat_map_filter : forall A B (p : A -> bool) (f : A -> list B) l, flat_map f (filter p l) = flat_map (fun e => if p e then f e else []) l.
Proof. intros A B p f l. induction l as [|e l IH]; [reflexivity|]. cbn [filter flat_map]. destruct (p e); cbn [flat_map]; rewrite IH; reflexivity. Qed.

Lemma compare_seen : forall d me l, compare d me (seen d l) = flat_map (seen_api d me) l.
Proof. intros d me l. unfold compare, seen. rewrite flat_map_map, flat_map_filter. reflexivity. Qed.

Lemma gapi_ok : forall na ns nt d me a, dev_ok na ns nt d -> api_sizes ns nt a ->
  exists a' b, gapi me d a = Ok (a', b) /\ api_sizes ns nt a' /\ capi_of a' = capi_of a /\
      (b = true -> pointing (xa_mods a') (xa_diff a') (xa_nd a') /\
        forall m, In m (chosen (xa_mods a') (xa_diff a') (xa_nd a')) -> pointing (xm_subs m) (xm_diff m) (xm_nd m)) /\
      opt (if b then Some (dapi_at a') else None) = seen_api d me (capi_of a).
Proof.
  intros na ns nt d me a D Z. unfold gapi, seen_api. rewrite api_exists. change (fst (capi_of a)) with (xa_num a).
  destruct (get_api d (xa_num a)) as [r|] eqn:G.
  - rewrite diff_mods_loop. cbn [a_nd xa_mods xa_nd xa_diff].
    destruct (mods_loop_ok ns nt (diff_mod me r) (fun m => if not_wrong d (xa_num a) m then opt (compare_mod d me (xa_num a) m) else []) a Z)
      as (l & nd & diff & E & Z' & C' & P' & PM & L' & N').
    { intros m I ZM. exact (diff_mod_ok na ns nt d me (xa_num a) r m D G ZM). }
    rewrite E. cbn [obind fst snd]. eexists. eexists. split; [reflexivity|]. split; [exact Z'|]. split; [exact C'|].
    split; [intros _; split; [exact P'|exact PM]|]. unfold dapi_at, with_mods. cbn [xa_num xa_mods xa_diff xa_nd a_nd]. rewrite L'.
    unfold compare_api. cbn [fst snd]. rewrite flat_map_filter, <- L'. remember (chosen l diff nd) as c eqn:EC. rewrite N'. destruct c; reflexivity.
  - destruct (miss_mods_ok ns nt (xa_n a) 0 (a_nd (xa_n a) a)) as (a' & E & C & Z').
    + destruct Z as (S1 & S2 & S3 & S4). cbn [a_nd xa_mods]. lia.
    + exact Z.
    + rewrite E. cbn [obind]. exists a', false. split; [reflexivity|]. split; [exact Z'|]. split; [exact C|]. split; [discriminate|reflexivity].
Qed.

(** C113: what is listed is the comparison of the expected configuration with what is
    plugged, but without APIs that do not exist and modules whose slot has another one. *)
Theorem C113_listed_partial : forall na ns nt h me i, (0 < na)%nat -> sizes na ns nt i ->
  exists i', module_diff me (run na ns nt h) i = Ok i' /\ conf i' = conf i /\ sizes na ns nt i' /\ pointing_all i' /\
    listing i' = compare (run na ns nt h) me (seen (run na ns nt h) (conf i)).
Proof.
  intros na ns nt h me i P Z. pose proof (run_ok na ns nt h P) as D. revert D. generalize (run na ns nt h). clear h. intros d D.
  unfold module_diff. rewrite diff_apis_loop. cbn [xi_apis xi_nd xi_diff].
  destruct (apis_loop_ok na ns nt (gapi me d) (seen_api d me) i Z) as (l & nd & diff & E & Z' & C' & P' & L').
  { intros a I ZA. exact (gapi_ok na ns nt d me a D ZA). }
  rewrite E. cbn [obind fst snd]. eexists. split; [reflexivity|]. split; [exact C'|]. split; [exact Z'|]. split; [exact P'|].
  rewrite compare_seen. exact L'.
Qed.
Print Assumptions C113_listed_partial.

(** Nothing is left out if every expected API exists and no slot has another module. *)
Definition fits (d : dev) (l : list capi) : Prop :=
  forall x, In x l -> In (fst x) (apis d) /\
    forall s id subs, In (s, id, subs) (snd x) -> mod_at d (fst x) s = None \/ mod_at d (fst x) s = Some id.

Lemma filter_all : forall A (p : A -> bool) l, (forall e, In e l -> p e = true) -> filter p l = l.
Proof. intros A p l H. induction l as [|e l IH]; [reflexivity|]. cbn [filter]. rewrite H by (left; reflexivity). rewrite IH; [reflexivity|]. intros x I. apply H. right. exact I. Qed.

Lemma fits_seen : forall d l, fits d l -> seen d l = l.
Proof.
  intros d l F. unfold seen. rewrite filter_all.
  - rewrite <- (map_id l) at 2. apply map_ext_in. intros [a ms] I. cbn [fst snd]. f_equal. apply filter_all. intros [[s id] subs] J.
    unfold not_wrong. destruct (proj2 (F _ I) s id subs J) as [H|H]; cbn [fst] in H; rewrite H; [reflexivity|apply Z.eqb_refl].
  - intros x I. apply existsb_in. exact (proj1 (F x I)).
Qed.

Theorem C113_exact_partial : forall na ns nt h me i, (0 < na)%nat -> sizes na ns nt i -> fits (run na ns nt h) (conf i) ->
  exists i', module_diff me (run na ns nt h) i = Ok i' /\ listing i' = compare (run na ns nt h) me (conf i).
Proof.
  intros na ns nt h me i P Z F. destruct (C113_listed_partial na ns nt h me i P Z) as (i' & E & _ & _ & _ & L).
  exists i'. split; [exact E|]. rewrite L, fits_seen by exact F. reflexivity.
Qed.
Print Assumptions C113_exact_partial.

(** A configuration as the parser of the connect request leaves it: the arrays filled up. *)
Definition xstate0 : xstate := mkXstate 0 false false false false 0 0 false.
Definition pad {A} (n : nat) (z : A) (l : list A) : list A := l ++ repeat z (n - length l).
Definition xsub_of (e : csub) : xsub := mkXsub (fst e) (snd e) xstate0.
Definition xmod_of (nt : nat) (m : cmod) : xmod :=
  let '(s, id, l) := m in mkXmod s id 0 (length l) (pad nt (xsub_of (0, 0)) (map xsub_of l)) 0 (repeat 0%nat nt).
Definition xapi_of (ns nt : nat) (x : capi) : xapi :=
  mkXapi (fst x) (length (snd x)) (pad ns (xmod_of nt (0, 0, [])) (map (xmod_of nt) (snd x))) 0 (repeat 0%nat ns).
Definition expecting (na ns nt : nat) (l : list capi) : xid :=
  mkXid (length l) (pad na (xapi_of ns nt (0, [])) (map (xapi_of ns nt) l)) 0 (repeat 0%nat na).

Lemma pad_length : forall A n (z : A) l, (length l <= n)%nat -> length (pad n z l) = n.
Proof. intros A n z l H. unfold pad. rewrite app_length, repeat_length. lia. Qed.
Lemma pad_in : forall A n (z : A) l e, In e (pad n z l) -> e = z \/ In e l.
Proof. intros A n z l e I. apply in_app_iff in I. destruct I as [I|I]; [right; exact I|left; exact (repeat_spec _ _ _ I)]. Qed.
Lemma pad_first : forall A n (z : A) l, firstn (length l) (pad n z l) = l.
Proof. intros A n z l. unfold pad. rewrite firstn_app, Nat.sub_diag, firstn_O, app_nil_r. apply firstn_all. Qed.

(** Every configuration within the limits is one. *)
Lemma expecting_sizes : forall na ns nt l, (length l <= na)%nat ->
  (forall x, In x l -> (length (snd x) <= ns)%nat /\ forall s id e, In (s, id, e) (snd x) -> (length e <= nt)%nat) -> sizes na ns nt (expecting na ns nt l).
Proof.
  intros na ns nt l L H.
  assert (M : forall m, (length (snd m) <= nt)%nat -> mod_sizes nt (xmod_of nt m)).
  { intros [[s id] e] LE. cbn [snd] in LE. split; [cbn [xm_subs]; apply pad_length; rewrite map_length; exact LE|]. split; [apply repeat_length|exact LE]. }
  assert (M0 : mod_sizes nt (xmod_of nt (0, 0, []))) by (apply M; cbn [snd length]; lia).
  assert (Z : forall x, (length (snd x) <= ns)%nat -> (forall s id e, In (s, id, e) (snd x) -> (length e <= nt)%nat) -> api_sizes ns nt (xapi_of ns nt x)).
  { intros x L1 L2. split; [cbn [xa_mods xapi_of]; apply pad_length; rewrite map_length; exact L1|]. split; [apply repeat_length|]. split; [exact L1|].
    intros m I. apply pad_in in I. destruct I as [->|I]; [exact M0|]. apply in_map_iff in I. destruct I as ([[s id] e] & <- & I). apply M. exact (L2 s id e I). }
  split; [cbn [xi_apis expecting]; apply pad_length; rewrite map_length; exact L|]. split; [apply repeat_length|]. split; [exact L|].
  intros a I. apply pad_in in I. destruct I as [->|I].
  - apply Z; [cbn [snd length]; lia|]. intros s id e [].
  - apply in_map_iff in I. destruct I as (x & <- & I). destruct (H x I) as [H1 H2]. apply Z; [exact H1|exact H2].
Qed.

Lemma expecting_conf : forall na ns nt l, conf (expecting na ns nt l) = l.
Proof.
  intros na ns nt l. unfold conf, expecting. cbn [xi_n xi_apis].
  rewrite <- (map_length (xapi_of ns nt) l) at 1. rewrite pad_first, map_map. rewrite <- (map_id l) at 2. apply map_ext.
  intros [a ms]. unfold capi_of, xapi_of. cbn [xa_num xa_n xa_mods fst snd]. f_equal.
  rewrite <- (map_length (xmod_of nt) ms) at 1. rewrite pad_first, map_map. rewrite <- (map_id ms) at 2. apply map_ext.
  intros [[s id] e]. unfold cmod_of, xmod_of. cbn [xm_num xm_ident xm_n xm_subs]. f_equal.
  rewrite <- (map_length xsub_of e) at 1. rewrite pad_first, map_map. rewrite <- (map_id e) at 2. apply map_ext. intros []; reflexivity.
Qed.

(** C113: an expected module whose slot has another module is not listed at all. *)
Theorem C113_wrong_module_refuted : exists na ns nt h me i i', sizes na ns nt i /\ module_diff me (run na ns nt h) i = Ok i' /\
  compare (run na ns nt h) me (conf i) <> [] /\ listing i' = [].
Proof.
  exists 1%nat, 1%nat, 1%nat, [PlugModule 0 1 50], 0%nat, (expecting 1 1 1 [(0, [(1, 51, [(1, 60)])])]). eexists.
  split; [apply expecting_sizes; [cbn [length]; lia|]; intros x [<-|[]]; cbn [snd length]; split; [lia|]; intros s id e [Q|[]]; injection Q as <- <- <-; cbn [length]; lia|].
  split; [vm_compute; reflexivity|]. split; [discriminate|reflexivity].
Qed.
Print Assumptions C113_wrong_module_refuted.

(** C113: the modules of an API that does not exist are not listed. *)
Theorem C113_missing_api_refuted : exists na ns nt h me i i', sizes na ns nt i /\ module_diff me (run na ns nt h) i = Ok i' /\
  compare (run na ns nt h) me (conf i) <> [] /\ listing i' = [].
Proof.
  exists 2%nat, 1%nat, 1%nat, [PlugModule 0 1 50], 0%nat, (expecting 2 1 1 [(7, [(1, 51, [(1, 60)])])]). eexists.
  split; [apply expecting_sizes; [cbn [length]; lia|]; intros x [<-|[]]; cbn [snd length]; split; [lia|]; intros s id e [Q|[]]; injection Q as <- <- <-; cbn [length]; lia|].
  split; [vm_compute; reflexivity|]. split; [discriminate|reflexivity].
Qed.
Print Assumptions C113_missing_api_refuted.

(** A configuration with everything in it: a proper submodule, a missing one, another one,
    a locked one, one with diagnosis, and a missing module. *)
Definition ex_history : list ev :=
  [PlugModule 0 1 50; PlugSub [] (fun _ => true) 0 1 1 50 60 (0, 0, 0); PlugSub [] (fun _ => true) 0 1 3 50 63 (0, 0, 0);
   PlugSub [] (fun _ => true) 0 1 4 50 64 (0, 0, 0); PlugSub [] (fun _ => true) 0 1 5 50 65 (0, 0, 0);
   Take 0 1 1 Ioc (Some 0%nat) false false false; Take 0 1 4 Ioc (Some 1%nat) false false false; Take 0 1 5 Free None true false true].
Definition ex_conf : list capi := [(0, [(1, 50, [(1, 60); (2, 61); (3, 62); (4, 64); (5, 65)]); (2, 51, [(1, 60)])])].
Example C113_example :
  sizes 1 2 5 (expecting 1 2 5 ex_conf) /\ fits (run 1 2 5 ex_history) ex_conf /\
  (exists i', module_diff 0 (run 1 2 5 ex_history) (expecting 1 2 5 ex_conf) = Ok i' /\
    listing i' = [(0, [(1, 50, proper_module, [(2, 61, told_as Missing); (3, 62, told_as Other); (4, 64, told_as Locked); (5, 65, told_as (Diagnosed true false true))]);
                       (2, 51, no_module, [])])]).
Proof.
  split; [|split].
  - apply expecting_sizes; [cbn [length ex_conf]; lia|]. intros x [<-|[]]. cbn [snd length]. split; [lia|].
    intros s id e [Q|[Q|[]]]; injection Q as <- <- <-; cbn [length]; lia.
  - intros x [<-|[]]. split; [left; reflexivity|]. intros s id e [Q|[Q|[]]]; injection Q as <- <- <-; [right|left]; reflexivity.
  - eexists. split; [vm_compute; reflexivity|reflexivity].
Qed.

(** * After plugging a submodule (C115) *)

(** The part of a configuration that concerns a submodule. *)
Definition only (a s t : Z) (l : list capi) : list capi :=
  map (fun x => (fst x, map (fun m => let '(s', id, subs) := m in (s', id, filter (fun e => fst e =? t) subs))
                            (filter (fun m => let '(s', _, _) := m in s' =? s) (snd x))))
    (filter (fun x => fst x =? a) l).

Definition gone (me : nat) (r : rslot) (t : Z) (e : xsub) : outcome (xsub * bool) :=
  if negb (xs_num e =? t) then Ok (e, false) else gsub me r e.

Lemma aset_same : forall A (l : list A) i e, aget l i = Ok e -> aset l i e = Ok l.
Proof.
  intros A l i e H. unfold aget in H. destruct (nth_error l i) as [x|] eqn:E; [|discriminate]. injection H as ->.
  destruct (nth_error_split _ _ E) as (l1 & l2 & -> & <-). apply aset_split.
Qed.

Lemma one_sub_loop : forall me r t n s m, one_sub me r t n s m =
  do (p, diff) <- loop _ (gone me r t) n s (xm_subs m) (xm_nd m) (xm_diff m); Ok (with_subs m (fst p) (snd p) diff).
Proof.
  intros me r t n. induction n as [|n IH]; intros s m; cbn [one_sub loop obind fst snd]; [rewrite with_subs_same; reflexivity|].
  destruct (aget (xm_subs m) s) as [e| |] eqn:AG; cbn [obind]; try reflexivity. unfold gone at 1. destruct (negb (xs_num e =? t)); cbn [obind].
  { rewrite (aset_same _ _ _ _ AG). cbn [obind]. apply IH. }
  unfold gsub at 1.
  destruct (judge me (get_sub r (xs_num e)) e) as [st b]. cbn [obind fst snd]. unfold put_sub.
  destruct (aset (xm_subs m) s (mkXsub (xs_num e) (xs_ident e) st)) as [l| |]; cbn [obind]; try reflexivity. destruct b.
  - unfold push_sub, set_mdiff. cbn [xm_diff xm_nd]. destruct (aset (xm_diff m) (xm_nd m) s) as [dl| |]; cbn [obind]; try reflexivity.
    rewrite IH. reflexivity.
  - cbn [obind]. rewrite IH. reflexivity.
Qed.

(** What is listed for one module of the API. *)
Definition only_mod (d : dev) (me : nat) (a s t : Z) (m : cmod) : list dmod :=
  let '(s', id, subs) := m in if s' =? s then opt (compare_mod d me a (s', id, filter (fun e => fst e =? t) subs)) else [].

Lemma one_mod_ok : forall na ns nt d me a r s t ix m, dev_ok na ns nt d -> get_api d a = Some r -> mod_sizes nt m ->
  (xm_num m = s -> not_wrong d a (cmod_of m) = true) ->
  exists m' b, one_mod me r s t ix m = Ok (m', b) /\ mod_sizes nt m' /\ cmod_of m' = cmod_of m /\
    (b = true -> pointing (xm_subs m') (xm_diff m') (xm_nd m')) /\
    opt (if b then Some (dmod_at m') else None) = only_mod d me a s t (cmod_of m).
Proof.
  intros na ns nt d me a r s t ix m D G (L1 & L2 & L3) NW. unfold one_mod, only_mod.
  unfold cmod_of at 2. unfold cmod_of at 2. destruct (Z.eqb_spec (xm_num m) s) as [Q|Q]; cbn [negb].
  2:{ exists (m_nd 0 m), false. split; [reflexivity|]. split; [split; [exact L1|split; [exact L2|exact L3]]|]. split; [reflexivity|]. split; [discriminate|reflexivity]. }
  specialize (NW Q).
  assert (SL : slot d a (xm_num m) = get_slot r (xm_num m)) by (unfold slot; rewrite G; reflexivity).
  assert (MA : mod_at d a (xm_num m) = option_map rl_ident (get_slot r (xm_num m))) by (rewrite (mod_at_slot na ns nt d a _ D), SL; reflexivity).
  unfold not_wrong, cmod_of in NW. unfold compare_mod. rewrite MA in *. destruct (get_slot r (xm_num m)) as [y|]; cbn [option_map] in *.
  - rewrite NW. rewrite Z.eqb_sym in NW. rewrite NW. cbn [negb].
    rewrite one_sub_loop. cbn [m_state m_nd xm_subs xm_nd xm_diff xm_n].
    destruct (loop_all _ (gone me y t) (xm_n m) (xm_subs m) (xm_diff m) ltac:(lia) ltac:(lia)) as (nd & diff' & E1 & E2 & E3 & E4 & E5).
    { intros e _. unfold defined, gone. destruct (negb (xs_num e =? t)); eexists; reflexivity. }
    rewrite E1. cbn [obind fst snd].
    assert (V1 : forall e, csub_of (fst (val _ (gone me y t) e)) = csub_of e) by (intros e; unfold val, gone; destruct (negb (xs_num e =? t)); reflexivity).
    eexists. eexists. split; [reflexivity|]. unfold with_subs. cbn [xm_subs xm_diff xm_nd xm_n xm_num xm_ident m_state m_nd xm_state]. split; [|split; [|split]].
    * split; [cbn [xm_subs]; rewrite arr_length; exact L1|]. split; [cbn [xm_diff]; lia|exact L3].
    * unfold cmod_of. cbn [xm_subs xm_n xm_num xm_ident]. f_equal. apply arr_first; [lia|]. intros e _. apply V1.
    * intros _. exact E4.
    * unfold dmod_at. cbn [xm_subs xm_diff xm_nd xm_n xm_num xm_ident xm_state]. rewrite E5.
      assert (QS : compare_subs d me a (xm_num m) (filter (fun e => fst e =? t) (map csub_of (firstn (xm_n m) (xm_subs m)))) =
        map dsub_at (map (fun e => fst (val _ (gone me y t) e)) (filter (fun e => snd (val _ (gone me y t) e)) (firstn (xm_n m) (xm_subs m))))).
      { unfold compare_subs. rewrite flat_map_filter, flat_map_map, map_map, <- flat_opt_filter. apply flat_map_ext_in. intros e _.
        unfold val, gone. cbn [csub_of fst]. destruct (xs_num e =? t); cbn [negb snd]; [|reflexivity].
        exact (eq_sym (judge_compare na ns nt d me a (xm_num m) y e D SL)). }
      rewrite QS. rewrite E3. destruct (filter (fun e => snd (val _ (gone me y t) e)) (firstn (xm_n m) (xm_subs m))) as [|e l]; reflexivity.
  - eexists. exists true. split; [reflexivity|]. split; [split; [exact L1|split; [exact L2|exact L3]]|]. split; [reflexivity|]. split; [|reflexivity].
    intros _. split; [cbn [m_state m_nd xm_nd]; lia|]. cbn [m_state m_nd xm_nd firstn]. intros k [].
Qed.

Lemma nth_set_other : forall A (l : list A) i k v, (i < k)%nat -> (i < length l)%nat -> nth_error (set_nth l i v) k = nth_error l k.
Proof.
  intros A l i k v H L. destruct (nth_error l i) as [x|] eqn:E; [|apply nth_error_None in E; lia].
  destruct (nth_error_split _ _ E) as (l1 & l2 & -> & <-). rewrite set_nth_split, !nth_error_app2 by lia.
  destruct (k - length l1)%nat eqn:Q; [lia|]. reflexivity.
Qed.

Lemma nth_firstn : forall A n (l : list A) k, (k < n)%nat -> nth_error (firstn n l) k = nth_error l k.
Proof.
  intros A n. induction n as [|n IH]; intros l k H; [lia|]. destruct l as [|e l]; [destruct k; reflexivity|]. destruct k as [|k]; [reflexivity|].
  cbn [firstn nth_error]. apply IH. lia.
Qed.

Lemma one_mods_loop : forall me r s t n ix a,
  (forall k m, (ix <= k < ix + n)%nat -> nth_error (xa_mods a) k = Some m -> one_mod me r s t k m = one_mod me r s t 0 m) ->
  one_mods me r s t n ix a =
  do (p, diff) <- loop _ (one_mod me r s t 0) n ix (xa_mods a) (xa_nd a) (xa_diff a); Ok (with_mods a (fst p) (snd p) diff).
Proof.
  intros me r s t n. induction n as [|n IH]; intros ix a H; cbn [one_mods loop obind fst snd]; [rewrite with_mods_same; reflexivity|].
  unfold aget. destruct (nth_error (xa_mods a) ix) as [m|] eqn:N; cbn [obind]; [|reflexivity].
  rewrite (H ix m ltac:(lia) N).
  destruct (one_mod me r s t 0 m) as [[m1 b]| |]; cbn [obind]; try reflexivity. unfold put_mod. unfold aset at 1 2.
  destruct (ix <? length (xa_mods a))%nat eqn:LT; cbn [obind]; [|reflexivity]. apply Nat.ltb_lt in LT.
  assert (H' : forall k m', (S ix <= k < S ix + n)%nat -> nth_error (set_nth (xa_mods a) ix m1) k = Some m' -> one_mod me r s t k m' = one_mod me r s t 0 m').
  { intros k m' K E. rewrite nth_set_other in E by lia. apply H; [lia|exact E]. }
  destruct b.
  - unfold push_mod, set_adiff. cbn [xa_diff xa_nd]. destruct (aset (xa_diff a) (xa_nd a) ix) as [dl| |]; cbn [obind]; try reflexivity.
    rewrite IH by exact H'. reflexivity.
  - cbn [obind]. rewrite IH by exact H'. reflexivity.
Qed.

Lemma one_mod_ix : forall na ns nt d me a r s t ix m, dev_ok na ns nt d -> get_api d a = Some r -> (xm_num m = s -> not_wrong d a (cmod_of m) = true) ->
  one_mod me r s t ix m = one_mod me r s t 0 m.
Proof.
  intros na ns nt d me a r s t ix m D G NW. unfold one_mod. destruct (Z.eqb_spec (xm_num m) s) as [Q|Q]; cbn [negb]; [|reflexivity]. specialize (NW Q).
  unfold not_wrong, cmod_of in NW. rewrite (mod_at_slot na ns nt d a _ D) in NW. unfold slot in NW. rewrite G in NW.
  destruct (get_slot r (xm_num m)) as [y|]; [|reflexivity]. cbn [option_map] in NW. rewrite Z.eqb_sym in NW. rewrite NW. reflexivity.
Qed.

Lemma one_miss_ok : forall ns nt sl n s a, (s + n <= length (xa_mods a))%nat -> api_sizes ns nt a ->
  exists a', one_miss sl n s a = Ok a' /\ capi_of a' = capi_of a /\ api_sizes ns nt a'.
Proof.
  intros ns nt sl. induction n as [|n IH]; intros s a L Z; cbn [one_miss]; [exists a; auto|]. pose proof Z as (S1 & S2 & S3 & S4).
  unfold aget. destruct (nth_error (xa_mods a) s) as [m|] eqn:E; [|apply nth_error_None in E; lia]. cbn [obind].
  destruct (xm_num m =? sl); [|apply IH; [lia|exact Z]].
  unfold put_mod, aset. replace (s <? length (xa_mods a))%nat with true by (symmetry; apply Nat.ltb_lt; lia). cbn [obind].
  unfold set_adiff, aset. cbn [xa_diff xa_nd]. replace (s <? length (xa_diff a))%nat with true by (symmetry; apply Nat.ltb_lt; lia). cbn [obind xa_num xa_n xa_mods].
  destruct (nth_error_split _ _ E) as (l1 & l2 & Q1 & Q2).
  assert (SN : set_nth (xa_mods a) s (m_nd 0 (m_state no_module m)) = l1 ++ m_nd 0 (m_state no_module m) :: l2) by (rewrite Q1, <- Q2; apply set_nth_split).
  rewrite SN. eexists. split; [reflexivity|]. split.
  - unfold capi_of. cbn [xa_num xa_n xa_mods]. f_equal. apply firstn_map_eq. rewrite Q1, !map_app. reflexivity.
  - split; [cbn [xa_mods]; rewrite <- S1, Q1, !app_length; reflexivity|]. split; [cbn [xa_diff]; rewrite set_nth_len by lia; exact S2|]. split; [exact S3|].
    cbn [xa_mods]. intros m' I. rewrite Q1 in S4. apply in_app_iff in I. destruct I as [I|[I|I]].
    + apply S4. apply in_app_iff. left. exact I.
    + subst m'. exact (S4 m ltac:(apply in_app_iff; right; left; reflexivity)).
    + apply S4. apply in_app_iff. right. right. exact I.
Qed.

Definition gone_api (me : nat) (d : dev) (ap sl t : Z) (a : xapi) : outcome (xapi * bool) :=
  if negb (xa_num a =? ap) then Ok (a_nd 0 a, false)
  else
    match get_api d ap with
    | None => do a1 <- one_miss sl (xa_n a) 0 (a_nd 0 a); Ok (a1, false)
    | Some r => do a1 <- one_mods me r sl t (xa_n a) 0 (a_nd 0 a); Ok (a1, (0 <? xa_nd a1)%nat)
    end.

Lemma one_apis_loop : forall me d ap sl t n ix i, one_apis me d ap sl t n ix i =
  do (p, diff) <- loop _ (gone_api me d ap sl t) n ix (xi_apis i) (xi_nd i) (xi_diff i); Ok (with_apis i (fst p) (snd p) diff).
Proof.
  intros me d ap sl t n. induction n as [|n IH]; intros ix i; cbn [one_apis loop obind fst snd]; [destruct i; reflexivity|].
  destruct (aget (xi_apis i) ix) as [a| |]; cbn [obind]; try reflexivity. unfold gone_api at 1.
  destruct (negb (xa_num a =? ap)).
  { cbn [obind]. unfold put_xapi. destruct (aset (xi_apis i) ix (a_nd 0 a)) as [l| |]; cbn [obind]; try reflexivity. rewrite IH. reflexivity. }
  destruct (get_api d ap) as [r|].
  - destruct (one_mods me r sl t (xa_n a) 0 (a_nd 0 a)) as [a1| |]; cbn [obind]; try reflexivity. unfold put_xapi.
    destruct (aset (xi_apis i) ix a1) as [l| |]; cbn [obind]; try reflexivity. destruct (0 <? xa_nd a1)%nat.
    + unfold push_api. cbn [xi_diff xi_nd]. destruct (aset (xi_diff i) (xi_nd i) ix) as [dl| |]; cbn [obind]; try reflexivity. rewrite IH. reflexivity.
    + cbn [obind]. rewrite IH. reflexivity.
  - destruct (one_miss sl (xa_n a) 0 (a_nd 0 a)) as [a1| |]; cbn [obind]; try reflexivity. unfold put_xapi.
    destruct (aset (xi_apis i) ix a1) as [l| |]; cbn [obind]; try reflexivity. rewrite IH. reflexivity.
Qed.

Definition only_api (d : dev) (me : nat) (ap sl t : Z) (x : capi) : list dapi :=
  if (fst x =? ap) && existsb (Z.eqb ap) (apis d) then
    match flat_map (only_mod d me ap sl t) (snd x) with [] => [] | l => [(fst x, l)] end
  else [].

(** No slot with this number that the controller expects has another module. *)
Definition slot_fits (d : dev) (a s : Z) (l : list capi) : Prop :=
  forall ms id subs, In (a, ms) l -> In (s, id, subs) ms -> mod_at d a s = None \/ mod_at d a s = Some id.

Lemma gone_api_ok : forall na ns nt d me ap sl t a, dev_ok na ns nt d -> api_sizes ns nt a ->
  (xa_num a = ap -> forall m, In m (firstn (xa_n a) (xa_mods a)) -> xm_num m = sl -> not_wrong d ap (cmod_of m) = true) ->
  exists a' b, gone_api me d ap sl t a = Ok (a', b) /\ api_sizes ns nt a' /\ capi_of a' = capi_of a /\
      (b = true -> pointing (xa_mods a') (xa_diff a') (xa_nd a') /\
        forall m, In m (chosen (xa_mods a') (xa_diff a') (xa_nd a')) -> pointing (xm_subs m) (xm_diff m) (xm_nd m)) /\
      opt (if b then Some (dapi_at a') else None) = only_api d me ap sl t (capi_of a).
Proof.
  intros na ns nt d me ap sl t a D Z NW. unfold gone_api, only_api. rewrite api_exists. change (fst (capi_of a)) with (xa_num a).
  destruct (Z.eqb_spec (xa_num a) ap) as [Q|Q]; cbn [negb andb].
  2:{ exists (a_nd 0 a), false. split; [reflexivity|]. split; [exact Z|]. split; [reflexivity|]. split; [discriminate|reflexivity]. }
  specialize (NW Q). destruct (get_api d ap) as [r|] eqn:G.
  - rewrite one_mods_loop.
    2:{ cbn [a_nd xa_mods]. intros k m K N. refine (one_mod_ix na ns nt d me ap r sl t k m D G _). apply NW.
        eapply nth_error_In with (n := k). rewrite nth_firstn by lia. exact N. }
    cbn [a_nd xa_mods xa_nd xa_diff].
    destruct (mods_loop_ok ns nt (one_mod me r sl t 0) (only_mod d me ap sl t) a Z) as (l & nd & diff & E & Z' & C' & P' & PM & L' & N').
    { intros m I ZM. exact (one_mod_ok na ns nt d me ap r sl t 0 m D G ZM (NW m I)). }
    rewrite E. cbn [obind fst snd]. eexists. eexists. split; [reflexivity|]. split; [exact Z'|]. split; [exact C'|].
    split; [intros _; split; [exact P'|exact PM]|]. unfold dapi_at, with_mods. cbn [xa_num xa_mods xa_diff xa_nd a_nd]. rewrite <- L'.
    remember (chosen l diff nd) as c eqn:EC. rewrite N'. destruct c; reflexivity.
  - destruct (one_miss_ok ns nt sl (xa_n a) 0 (a_nd 0 a)) as (a' & E & C & Z').
    + destruct Z as (S1 & S2 & S3 & S4). cbn [a_nd xa_mods]. lia.
    + exact Z.
    + rewrite E. cbn [obind]. exists a', false. split; [reflexivity|]. split; [exact Z'|]. split; [exact C|]. split; [discriminate|reflexivity].
Qed.

Lemma compare_only : forall d me a s t l, In a (apis d) -> compare d me (only a s t l) = flat_map (only_api d me a s t) l.
Proof.
  intros d me a s t l I. unfold compare, only. rewrite flat_map_map, flat_map_filter. apply flat_map_ext_in. intros [a0 ms] _. unfold only_api.
  apply existsb_in in I. rewrite I, andb_true_r. cbn [fst snd]. destruct (Z.eqb_spec a0 a) as [Q|Q]; [|reflexivity]. subst a0.
  unfold compare_api. cbn [fst snd]. rewrite flat_map_map, flat_map_filter.
  rewrite (flat_map_ext_in _ _ _ (only_mod d me a s t) ms).
  - destruct (flat_map (only_mod d me a s t) ms); reflexivity.
  - intros [[s' id] subs] _. unfold only_mod. destruct (s' =? s); reflexivity.
Qed.

(** C115: the difference after plugging is the part of the comparison that concerns the
    submodule, if the API exists and no other module is in the slot. *)
Theorem C115_one_partial : forall na ns nt h me a s t i, (0 < na)%nat -> sizes na ns nt i ->
  In a (apis (run na ns nt h)) -> slot_fits (run na ns nt h) a s (conf i) ->
  exists i', submodule_diff me (run na ns nt h) a s t i = Ok i' /\ conf i' = conf i /\ sizes na ns nt i' /\ pointing_all i' /\
    listing i' = compare (run na ns nt h) me (only a s t (conf i)).
Proof.
  intros na ns nt h me a s t i P Z AP F. pose proof (run_ok na ns nt h P) as D. revert D AP F. generalize (run na ns nt h). clear h. intros d D AP F.
  unfold submodule_diff. rewrite one_apis_loop. cbn [xi_apis xi_nd xi_diff].
  destruct (apis_loop_ok na ns nt (gone_api me d a s t) (only_api d me a s t) i Z) as (l & nd & diff & E & Z' & C' & P' & L').
  { intros x I ZA. refine (gone_api_ok na ns nt d me a s t x D ZA _). intros Q m J M. unfold not_wrong, cmod_of.
    destruct (F (snd (capi_of x)) (xm_ident m) (map csub_of (firstn (xm_n m) (xm_subs m)))) as [H|H].
    - rewrite <- Q. change (xa_num x, snd (capi_of x)) with (capi_of x). unfold conf. apply in_map. exact I.
    - rewrite <- M. cbn [capi_of snd]. apply (in_map cmod_of) in J. exact J.
    - rewrite M, H. reflexivity.
    - rewrite M, H. apply Z.eqb_refl. }
  rewrite E. cbn [obind fst snd]. eexists. split; [reflexivity|]. split; [exact C'|]. split; [exact Z'|]. split; [exact P'|].
  rewrite compare_only by exact AP. exact L'.
Qed.
Print Assumptions C115_one_partial.

(** C115: with another module in a slot whose place in the list is beyond the number of
    subslots, memory outside the array is read. *)
Theorem C115_memory_refuted : exists na ns nt h me a s t i, sizes na ns nt i /\ submodule_diff me (run na ns nt h) a s t i = Ub.
Proof.
  exists 1%nat, 2%nat, 1%nat, [PlugModule 0 2 50], 0%nat, 0, 2, 1, (expecting 1 2 1 [(0, [(1, 51, []); (2, 52, [(1, 60)])])]).
  split; [|vm_compute; reflexivity]. apply expecting_sizes; [cbn [length]; lia|]. intros x [<-|[]]. cbn [snd length]. split; [lia|].
  intros s id e [Q|[Q|[]]]; injection Q as <- <- <-; cbn [length]; lia.
Qed.
Print Assumptions C115_memory_refuted.

(** C115: with another module in the slot, or without the API, nothing is listed. *)
Theorem C115_lost_refuted : exists na ns nt h me s t i, sizes na ns nt i /\
  (forall a, a = 0 \/ a = 7 -> compare (run na ns nt h) me (only a s t (conf i)) <> [] /\
    exists i', submodule_diff me (run na ns nt h) a s t i = Ok i' /\ listing i' = []).
Proof.
  exists 2%nat, 1%nat, 1%nat, [PlugModule 0 1 50], 0%nat, 1, 1, (expecting 2 1 1 [(0, [(1, 51, [(1, 60)])]); (7, [(1, 51, [(1, 60)])])]).
  split.
  - apply expecting_sizes; [cbn [length]; lia|]. intros x [<-|[<-|[]]]; cbn [snd length]; (split; [lia|]); intros s id e [Q|[]]; injection Q as <- <- <-; cbn [length]; lia.
  - intros a [->| ->]; (split; [discriminate|]); eexists; (split; [vm_compute; reflexivity|reflexivity]).
Qed.
Print Assumptions C115_lost_refuted.

Example C115_example :
  sizes 1 2 5 (expecting 1 2 5 ex_conf) /\ In 0 (apis (run 1 2 5 ex_history)) /\ slot_fits (run 1 2 5 ex_history) 0 1 ex_conf /\
  (exists i', submodule_diff 0 (run 1 2 5 ex_history) 0 1 3 (expecting 1 2 5 ex_conf) = Ok i' /\
    listing i' = [(0, [(1, 50, proper_module, [(3, 62, told_as Other)])])]).
Proof.
  split; [exact (proj1 C113_example)|]. split; [left; reflexivity|]. split.
  - intros ms id subs [Q|[]] I. injection Q as <-. destruct I as [Q|[Q|[]]]; [injection Q as <- <-; right; reflexivity|discriminate Q].
  - eexists. split; [vm_compute; reflexivity|reflexivity].
Qed.
