(** Plugging and pulling (C112). *)
From Coq Require Import List ZArith Arith Bool Lia.
From Verif Require Import IdentModel.
Import ListNotations.
Local Open Scope Z_scope.

(** * Specification: the table of what is plugged *)

(** One row per module: API, slot, ident number, submodules. *)
Record row := mkRow { w_api : Z; w_slot : Z; w_ident : Z; w_subs : list rsub }.
Definition rows (x : rapi) : list row :=
  map (fun y => mkRow (ra_num x) (rl_num y) (rl_ident y) (filter rs_use (rl_subs y))) (filter rl_use (ra_slots x)).
Definition table (d : dev) : list row := flat_map rows (filter ra_use d).
Definition apis (d : dev) : list Z := map ra_num (filter ra_use d).

Definition row_at (d : dev) (a s : Z) : option row := find (fun r => (w_api r =? a) && (w_slot r =? s)) (table d).
(** The ident number of the module in a slot. *)
Definition mod_at (d : dev) (a s : Z) : option Z := option_map w_ident (row_at d a s).
(** The submodule in a subslot, and its ident number with direction and lengths. *)
Definition sub_in (d : dev) (a s t : Z) : option rsub :=
  match row_at d a s with None => None | Some r => find (fun z => rs_num z =? t) (w_subs r) end.
Definition sub_at (d : dev) (a s t : Z) : option (Z * (Z * Z * Z)) :=
  option_map (fun z => (rs_ident z, rs_data z)) (sub_in d a s t).
(** How many modules an API has, how many submodules a module has. *)
Definition mods_of (d : dev) (a : Z) : nat := length (filter (fun r => w_api r =? a) (table d)).
Definition subs_of (d : dev) (a s : Z) : nat := match row_at d a s with None => O | Some r => length (w_subs r) end.

(** * Arrays of cells *)

Lemma filter_length_le : forall A (f : A -> bool) l, (length (filter f l) <= length l)%nat.
Proof. intros A f l. induction l as [|x l IH]; cbn [filter length]; [lia|]. destruct (f x); cbn [length]; lia. Qed.

Section Cells.
Variable A : Type.
Variable use : A -> bool.
Variable num : A -> Z.
Notation get := (get use num). Notation change := (change use num). Notation take := (take use).

Definition uniq (l : list A) : Prop := NoDup (map num (filter use l)).
Definition allin (P : A -> Prop) (l : list A) : Prop := forall x, In x l -> use x = true -> P x.

Lemma get_some : forall k l x, get k l = Some x -> In x l /\ use x = true /\ num x = k.
Proof.
  induction l as [|y l IH]; cbn [IdentModel.get]; intros x H; [discriminate|].
  destruct (use y) eqn:U; cbn [andb] in H.
  - destruct (Z.eqb_spec (num y) k) as [E|E].
    + injection H as <-. split; [left; reflexivity|auto].
    + destruct (IH x H) as [I J]. split; [right; exact I|exact J].
  - destruct (IH x H) as [I J]. split; [right; exact I|exact J].
Qed.

Lemma get_none : forall k l, get k l = None <-> ~ In k (map num (filter use l)).
Proof.
  induction l as [|y l IH]; cbn [IdentModel.get filter map]; [split; auto|].
  destruct (use y) eqn:U; cbn [andb map In].
  - destruct (Z.eqb_spec (num y) k) as [E|E]; [split; [discriminate|intros H; exfalso; apply H; left; exact E]|].
    rewrite IH. split; [intros H [J|J]; auto|auto].
  - exact IH.
Qed.

Lemma get_find : forall k l, get k l = find (fun x => num x =? k) (filter use l).
Proof.
  induction l as [|y l IH]; cbn [IdentModel.get filter]; [reflexivity|].
  destruct (use y); cbn [andb find]; [|exact IH]. destruct (num y =? k); [reflexivity|exact IH].
Qed.

Lemma change_nums : forall k f l, (forall x, use x = true -> num x = k -> use (f x) = use x /\ num (f x) = num x) ->
  map num (filter use (change k f l)) = map num (filter use l).
Proof.
  intros k f l F. induction l as [|y l IH]; cbn [IdentModel.change filter map]; [reflexivity|].
  destruct (use y) eqn:U; cbn [andb].
  - destruct (Z.eqb_spec (num y) k) as [E|E].
    + destruct (F y U E) as [F1 F2]. cbn [filter]. rewrite F1, U. cbn [map]. rewrite F2. reflexivity.
    + cbn [filter]. rewrite U. cbn [map]. rewrite IH. reflexivity.
  - cbn [filter]. rewrite U. exact IH.
Qed.

Lemma get_change : forall k f l k', (forall x, use x = true -> num x = k -> use (f x) = use x /\ num (f x) = num x) ->
  get k' (change k f l) = if k' =? k then option_map f (get k l) else get k' l.
Proof.
  intros k f l k' F. induction l as [|y l IH]; cbn [IdentModel.change IdentModel.get]; [destruct (k' =? k); reflexivity|].
  destruct (use y) eqn:U; cbn [andb].
  - destruct (Z.eqb_spec (num y) k) as [E|E].
    + destruct (F y U E) as [F1 F2]. cbn [IdentModel.get]. rewrite F1, F2, U. cbn [andb].
      rewrite E, Z.eqb_sym. destruct (k' =? k) eqn:K; [reflexivity|]. reflexivity.
    + cbn [IdentModel.get]. rewrite U. cbn [andb]. destruct (Z.eqb_spec (num y) k') as [E'|E'].
      * destruct (Z.eqb_spec k' k); [congruence|]. reflexivity.
      * exact IH.
  - cbn [IdentModel.get]. rewrite U. cbn [andb]. exact IH.
Qed.

(** The first hit is taken out of use. *)
Lemma get_drop : forall k f l k', uniq l -> (forall x, use x = true -> num x = k -> use (f x) = false) ->
  get k' (change k f l) = if k' =? k then None else get k' l.
Proof.
  intros k f l k' N F. induction l as [|y l IH]; cbn [IdentModel.change IdentModel.get]; [destruct (k' =? k); reflexivity|].
  unfold uniq in N. cbn [filter] in N.
  destruct (use y) eqn:U; cbn [andb].
  - cbn [map] in N. inversion N as [|? ? N1 N2]; subst.
    destruct (Z.eqb_spec (num y) k) as [E|E].
    + cbn [IdentModel.get]. rewrite (F y U E). cbn [andb].
      rewrite E. destruct (Z.eqb_spec k' k) as [K|K].
      * subst. apply get_none. exact N1.
      * destruct (Z.eqb_spec k k'); [congruence|]. reflexivity.
    + cbn [IdentModel.get]. rewrite U. cbn [andb]. destruct (Z.eqb_spec (num y) k') as [E'|E'].
      * destruct (Z.eqb_spec k' k); [congruence|]. reflexivity.
      * apply IH. exact N2.
  - cbn [IdentModel.get]. rewrite U. cbn [andb]. apply IH. exact N.
Qed.

Lemma change_length : forall k f l, length (change k f l) = length l.
Proof.
  induction l as [|y l IH]; cbn [IdentModel.change]; [reflexivity|].
  destruct (use y && (num y =? k)); cbn [length]; [reflexivity|rewrite IH; reflexivity].
Qed.

Lemma change_same : forall k f l, uniq l -> (forall x, use x = true -> num x = k -> use (f x) = use x /\ num (f x) = num x) -> uniq (change k f l).
Proof. intros k f l N F. unfold uniq. rewrite change_nums by exact F. exact N. Qed.

Lemma drop_in : forall k f l x, (forall x, use x = true -> num x = k -> use (f x) = false) ->
  In x (map num (filter use (change k f l))) -> In x (map num (filter use l)).
Proof.
  intros k f l x F. induction l as [|y l IH]; cbn [IdentModel.change filter map]; [auto|].
  destruct (use y) eqn:U; cbn [andb].
  - destruct (Z.eqb_spec (num y) k) as [E|E].
    + cbn [filter]. rewrite (F y U E). intros H. right. exact H.
    + cbn [filter]. rewrite U. cbn [map]. intros [H|H]; [left; exact H|right; apply IH; exact H].
  - cbn [filter]. rewrite U. exact IH.
Qed.

Lemma drop_uniq : forall k f l, uniq l -> (forall x, use x = true -> num x = k -> use (f x) = false) -> uniq (change k f l).
Proof.
  intros k f l N F. unfold uniq in *. induction l as [|y l IH]; cbn [IdentModel.change]; [exact N|].
  cbn [filter] in N. destruct (use y) eqn:U; cbn [andb].
  - cbn [map] in N. inversion N as [|? ? N1 N2]; subst. destruct (Z.eqb_spec (num y) k) as [E|E].
    + cbn [filter]. rewrite (F y U E). exact N2.
    + cbn [filter]. rewrite U. cbn [map]. constructor; [|apply IH; exact N2].
      intros H. apply N1. revert H. apply drop_in. exact F.
  - cbn [filter]. rewrite U. apply IH. exact N.
Qed.

Lemma allin_change : forall P k f l, allin P l -> (forall x, use x = true -> num x = k -> P x -> use (f x) = true -> P (f x)) -> allin P (change k f l).
Proof.
  intros P k f l H F. induction l as [|y l IH]; cbn [IdentModel.change]; [exact H|].
  assert (H0 : allin P l) by (intros x I U; apply H; [right; exact I|exact U]).
  destruct (use y) eqn:U; cbn [andb].
  - destruct (Z.eqb_spec (num y) k) as [E|E].
    + intros x [I|I] V; [subst x; apply F; auto; apply H; [left; reflexivity|exact U]|apply H0; auto].
    + intros x [I|I] V; [subst x; apply H; [left; reflexivity|exact U]|apply IH; auto].
  - intros x [I|I] V; [subst x; congruence|apply IH; auto].
Qed.

Lemma take_some : forall f l l', take f l = Some l' -> (forall x, use (f x) = true) -> forall k, (forall x, num (f x) = k) ->
  get k l = None -> exists y, In y l /\ use y = false /\
  (forall k', get k' l' = if k' =? k then Some (f y) else get k' l) /\
  (forall x, In x l' -> x = f y \/ In x l) /\
  (uniq l -> uniq l') /\ length l' = length l.
Proof.
  intros f l. induction l as [|z l IH]; intros l' T F k K G; cbn [IdentModel.take] in T; [discriminate|].
  cbn [IdentModel.get] in G. destruct (use z) eqn:U; cbn [andb] in G.
  - destruct (take f l) as [l1|] eqn:E; cbn [option_map] in T; [|discriminate]. injection T as <-.
    destruct (Z.eqb_spec (num z) k) as [Q|Q]; [discriminate|].
    destruct (IH l1 eq_refl F k K G) as (y & I & V & G1 & I1 & N1 & L1).
    exists y. split; [right; exact I|]. split; [exact V|]. split; [|split; [|split]].
    + intros k'. cbn [IdentModel.get]. rewrite U. cbn [andb]. destruct (Z.eqb_spec (num z) k') as [Q'|Q'].
      * destruct (Z.eqb_spec k' k); [congruence|reflexivity].
      * apply G1.
    + intros x [J|J]; [right; left; exact J|]. destruct (I1 x J); [left; assumption|right; right; assumption].
    + intros N. unfold uniq in *. cbn [filter] in *. rewrite U in *. cbn [map] in *. inversion N as [|? ? Na Nb]; subst.
      constructor; [|apply N1; exact Nb]. apply get_none. rewrite G1.
      destruct (Z.eqb_spec (num z) k); [congruence|]. apply get_none. exact Na.
    + cbn [length]. rewrite L1. reflexivity.
  - injection T as <-. exists z. split; [left; reflexivity|]. split; [exact U|]. split; [|split; [|split]].
    + intros k'. cbn [IdentModel.get]. rewrite F, K, U. cbn [andb]. rewrite Z.eqb_sym. destruct (k' =? k); reflexivity.
    + intros x [J|J]; [left; symmetry; exact J|right; right; exact J].
    + intros N. unfold uniq in *. cbn [filter] in *. rewrite F. rewrite U in N. cbn [map]. rewrite K.
      constructor; [apply get_none; exact G|exact N].
    + reflexivity.
Qed.

Lemma take_none : forall f l, take f l = None <-> length (filter use l) = length l.
Proof.
  intros f l. induction l as [|z l IH]; cbn [IdentModel.take filter length]; [split; reflexivity|].
  destruct (use z); cbn [length].
  - destruct (take f l); cbn [option_map].
    + split; [discriminate|intros H; injection H as H; apply IH in H; discriminate].
    + split; [intros _; f_equal; apply IH; reflexivity|reflexivity].
  - split; [discriminate|]. intros H. pose proof (filter_length_le _ use l) as Q. rewrite H in Q. lia.
Qed.
End Cells.

(** * Reachable devices *)

Definition slot_ok (nt : nat) (y : rslot) : Prop := uniq _ rs_use rs_num (rl_subs y) /\ length (rl_subs y) = nt.
Definition api_ok (ns nt : nat) (x : rapi) : Prop :=
  uniq _ rl_use rl_num (ra_slots x) /\ length (ra_slots x) = ns /\ allin _ rl_use (slot_ok nt) (ra_slots x).
Definition dev_ok (na ns nt : nat) (d : dev) : Prop :=
  uniq _ ra_use ra_num d /\ length d = na /\ allin _ ra_use (api_ok ns nt) d.

Lemma in_api_ok : forall na ns nt d a f, dev_ok na ns nt d ->
  (forall x, ra_use x = true -> ra_num x = a -> ra_use (f x) = ra_use x /\ ra_num (f x) = ra_num x) ->
  (forall x, ra_use x = true -> ra_num x = a -> api_ok ns nt x -> api_ok ns nt (f x)) -> dev_ok na ns nt (in_api a f d).
Proof.
  intros na ns nt d a f (N & L & I) F G. unfold in_api. split; [apply change_same; auto|]. split; [rewrite change_length; exact L|].
  apply allin_change; [exact I|]. intros x U K H _. apply G; auto.
Qed.

(** [keep]: a change of a slot keeps it in use, or takes it out of use. *)
Lemma in_slot_ok : forall na ns nt d a s f, dev_ok na ns nt d ->
  (forall y, rl_use y = true -> rl_num y = s -> rl_use (f y) = rl_use y /\ rl_num (f y) = rl_num y) \/
  (forall y, rl_use y = true -> rl_num y = s -> rl_use (f y) = false) ->
  (forall y, rl_use y = true -> rl_num y = s -> slot_ok nt y -> slot_ok nt (f y)) -> dev_ok na ns nt (in_slot a s f d).
Proof.
  intros na ns nt d a s f D F G. unfold in_slot. apply in_api_ok; [exact D| |].
  - intros x U K. cbn [ra_use ra_num]. split; reflexivity.
  - intros x U K (N & L & I). unfold api_ok. cbn [ra_slots]. split; [destruct F; [apply change_same; auto|apply drop_uniq; auto]|].
    split; [rewrite change_length; exact L|]. apply allin_change; [exact I|]. intros y V M H _. apply G; auto.
Qed.

Lemma in_sub_ok : forall na ns nt d a s t f, dev_ok na ns nt d ->
  (forall z, rs_use z = true -> rs_num z = t -> rs_use (f z) = rs_use z /\ rs_num (f z) = rs_num z) \/
  (forall z, rs_use z = true -> rs_num z = t -> rs_use (f z) = false) -> dev_ok na ns nt (in_sub a s t f d).
Proof.
  intros na ns nt d a s t f D F. unfold in_sub. apply in_slot_ok; [exact D| |].
  - left. intros y U K. cbn [rl_use rl_num]. split; reflexivity.
  - intros y U K (N & L). unfold slot_ok. cbn [rl_subs]. split; [destruct F; [apply change_same; auto|apply drop_uniq; auto]|].
    rewrite change_length. exact L.
Qed.

Lemma get_api_ok : forall na ns nt d a x, dev_ok na ns nt d -> get_api d a = Some x -> api_ok ns nt x /\ ra_use x = true /\ ra_num x = a.
Proof. intros na ns nt d a x (N & L & I) G. apply get_some in G. destruct G as (J & U & K). split; [apply I; auto|auto]. Qed.

Lemma get_slot_ok : forall ns nt x s y, api_ok ns nt x -> get_slot x s = Some y -> slot_ok nt y /\ rl_use y = true /\ rl_num y = s.
Proof. intros ns nt x s y (N & L & I) G. apply get_some in G. destruct G as (J & U & K). split; [apply I; auto|auto]. Qed.

Lemma uniq_repeat : forall A (use : A -> bool) num x n, use x = false -> uniq A use num (repeat x n).
Proof. intros A use num x n U. unfold uniq. induction n as [|n IH]; cbn [repeat filter]; [constructor|rewrite U; exact IH]. Qed.
Lemma allin_repeat : forall A (use : A -> bool) P x n, use x = false -> allin A use P (repeat x n).
Proof. intros A use P x n U y I V. apply repeat_spec in I. subst. congruence. Qed.

Lemma new_api_ok : forall na ns nt d a d', dev_ok na ns nt d -> new_api ns nt d a = Some d' -> dev_ok na ns nt d'.
Proof.
  intros na ns nt d a d' (N & L & I) H. unfold new_api in H. destruct (get_api d a) eqn:G; [discriminate|].
  destruct (take_some _ ra_use ra_num _ _ _ H ltac:(reflexivity) a ltac:(reflexivity) G) as (y & _ & _ & _ & J & U & M).
  split; [apply U; exact N|]. split; [congruence|]. intros x Q V. destruct (J x Q) as [->|Q'].
  - unfold api_ok. cbn [ra_slots zero_api]. split; [apply uniq_repeat; reflexivity|]. split; [apply repeat_length|].
    apply allin_repeat. reflexivity.
  - apply I; assumption.
Qed.

Lemma init_ok : forall na ns nt, (0 < na)%nat -> dev_ok na ns nt (init na ns nt).
Proof.
  intros na ns nt P. unfold init. destruct (new_api ns nt (repeat (zero_api ns nt) na) 0) eqn:E.
  - refine (new_api_ok na ns nt _ 0 _ _ E). split; [apply uniq_repeat; reflexivity|]. split; [apply repeat_length|].
    apply allin_repeat. reflexivity.
  - exfalso. unfold new_api in E. destruct (get_api (repeat (zero_api ns nt) na) 0) eqn:G.
    + apply get_some in G. destruct G as (I & U & _). apply repeat_spec in I. subst. discriminate.
    + destruct na; [lia|]. cbn [repeat take zero_api ra_use] in E. discriminate.
Qed.

Lemma plug_module_ok : forall na ns nt d a s id, dev_ok na ns nt d -> dev_ok na ns nt (fst (plug_module nt d a s id)).
Proof.
  intros na ns nt d a s id D. unfold plug_module. destruct (get_api d a) as [x|] eqn:G; [|exact D].
  destruct (get_slot x s) as [y|] eqn:Y; [exact D|]. destruct (new_slot nt s id (ra_slots x)) as [l|] eqn:E; [|exact D].
  cbn [fst]. destruct (get_api_ok _ _ _ _ _ _ D G) as ((N & L & I) & U & K).
  apply in_api_ok; [exact D| |].
  - intros x' _ _. cbn [ra_use ra_num]. split; reflexivity.
  - intros x' _ _ _. unfold new_slot in E.
    destruct (take_some _ rl_use rl_num _ _ _ E ltac:(reflexivity) s ltac:(reflexivity) Y) as (y & _ & _ & _ & J & V & M).
    unfold api_ok. cbn [ra_slots]. split; [apply V; exact N|]. split; [congruence|].
    intros z Q W. destruct (J z Q) as [->|Q']; [|apply I; assumption].
    unfold slot_ok. cbn [rl_subs zero_slot]. split; [apply uniq_repeat; reflexivity|apply repeat_length].
Qed.

Lemma pull_sub_ok : forall na ns nt sent d a s t, dev_ok na ns nt d -> dev_ok na ns nt (fst (fst (pull_sub sent d a s t))).
Proof.
  intros na ns nt sent d a s t D. unfold pull_sub. destruct (get_api d a) as [x|]; [|exact D].
  destruct (get_slot x s) as [y|]; [|exact D]. destruct (get_sub y t) as [z|]; [|exact D].
  destruct (owned z); cbn [fst]; (apply in_sub_ok; [exact D|right; reflexivity]).
Qed.

Lemma plug_sub_ok : forall na ns nt sent ars d a s t mid id data, dev_ok na ns nt d ->
  dev_ok na ns nt (fst (fst (plug_sub nt sent ars d a s t mid id data))).
Proof.
  intros na ns nt sent ars d a s t mid id data D. unfold plug_sub. destruct (get_api d a) as [x|] eqn:G; [|exact D].
  set (d1 := match get_slot x s with None => fst (plug_module nt d a s mid) | Some _ => d end).
  assert (D1 : dev_ok na ns nt d1) by (unfold d1; destruct (get_slot x s); [exact D|apply plug_module_ok; exact D]).
  clearbody d1. set (same := match get_slot x s with None => false | Some y => _ end). clearbody same. destruct same; [exact D1|].
  destruct (get_api d1 a) as [x1|] eqn:G1; [|exact D1]. destruct (get_slot x1 s) as [y|] eqn:Y; [|exact D1].
  destruct (get_sub y t) as [z|] eqn:Z; [exact D1|].
  destruct (first_expecting ars a s t) as [[i e]|].
  - destruct (new_sub _ (rl_subs y)) as [l|] eqn:E; [|exact D1]. cbn [fst].
    destruct (get_api_ok _ _ _ _ _ _ D1 G1) as (A1 & _ & _). destruct (get_slot_ok _ _ _ _ _ A1 Y) as ((N & L) & _ & _).
    apply in_slot_ok; [exact D1|left; intros; split; reflexivity|]. intros y' _ _ _. unfold new_sub in E.
    destruct (take_some _ rs_use rs_num _ _ _ E ltac:(reflexivity) t ltac:(reflexivity) Z) as (q & _ & _ & _ & J & V & M).
    unfold slot_ok. cbn [rl_subs]. split; [apply V; exact N|congruence].
  - destruct (new_sub _ (rl_subs y)) as [l|] eqn:E; [|exact D1]. cbn [fst].
    destruct (get_api_ok _ _ _ _ _ _ D1 G1) as (A1 & _ & _). destruct (get_slot_ok _ _ _ _ _ A1 Y) as ((N & L) & _ & _).
    apply in_slot_ok; [exact D1|left; intros; split; reflexivity|]. intros y' _ _ _. unfold new_sub in E.
    destruct (take_some _ rs_use rs_num _ _ _ E ltac:(reflexivity) t ltac:(reflexivity) Z) as (q & _ & _ & _ & J & V & M).
    unfold slot_ok. cbn [rl_subs]. split; [apply V; exact N|congruence].
Qed.

Lemma pull_cells_ok : forall na ns nt sent a s n ix d, dev_ok na ns nt d -> dev_ok na ns nt (fst (fst (pull_cells n ix sent d a s))).
Proof.
  intros na ns nt sent a s n. induction n as [|n IH]; intros ix d D; cbn [pull_cells]; [exact D|].
  destruct (cell_at d a s ix) as [z|]; [|exact D]. destruct (rs_use z); [|apply IH; exact D].
  pose proof (pull_sub_ok na ns nt sent d a s (rs_num z) D) as P. destruct (pull_sub sent d a s (rs_num z)) as [[d1 ok] al].
  cbn [fst] in P. destruct ok; [|exact P]. specialize (IH (S ix) d1 P). destruct (pull_cells n (S ix) sent d1 a s) as [[d2 ok2] al2]. exact IH.
Qed.

Lemma pull_module_ok : forall na ns nt sent d a s, dev_ok na ns nt d -> dev_ok na ns nt (fst (fst (pull_module sent d a s))).
Proof.
  intros na ns nt sent d a s D. unfold pull_module. destruct (get_api d a) as [x|]; [|exact D].
  destruct (get_slot x s) as [y|]; [|exact D].
  pose proof (pull_cells_ok na ns nt sent a s (length (rl_subs y)) 0 d D) as P.
  destruct (pull_cells (length (rl_subs y)) 0 sent d a s) as [[d1 ok] al]. cbn [fst] in P. destruct ok; [|exact P].
  cbn [fst]. apply in_slot_ok; [exact P|right; reflexivity|]. intros y' _ _ H. exact H.
Qed.

Lemma step_ok : forall na ns nt d e, dev_ok na ns nt d -> dev_ok na ns nt (step ns nt d e).
Proof.
  intros na ns nt d e D. destruct e; cbn [step].
  - apply plug_module_ok; exact D.
  - apply plug_sub_ok; exact D.
  - apply pull_sub_ok; exact D.
  - apply pull_module_ok; exact D.
  - destruct (new_api ns nt d a) as [d'|] eqn:E; [exact (new_api_ok na ns nt d a d' D E)|exact D].
  - apply in_sub_ok; [exact D|]. left. intros; split; reflexivity.
Qed.

Lemma run_ok : forall na ns nt h, (0 < na)%nat -> dev_ok na ns nt (run na ns nt h).
Proof.
  intros na ns nt h P. unfold run. generalize (init_ok na ns nt P). generalize (init na ns nt).
  induction h as [|e h IH]; intros d D; cbn [fold_left]; [exact D|]. apply IH. apply step_ok. exact D.
Qed.

(** * The table and the functions that search *)

Lemma find_app : forall A (f : A -> bool) l1 l2, find f (l1 ++ l2) = match find f l1 with Some x => Some x | None => find f l2 end.
Proof. intros A f l1 l2. induction l1 as [|x l IH]; cbn [app find]; [reflexivity|]. destruct (f x); [reflexivity|exact IH]. Qed.

Definition row_of (a : Z) (y : rslot) : row := mkRow a (rl_num y) (rl_ident y) (filter rs_use (rl_subs y)).

Lemma find_rows_other : forall x a s, ra_num x <> a -> find (fun r => (w_api r =? a) && (w_slot r =? s)) (rows x) = None.
Proof.
  intros x a s N. unfold rows. induction (filter rl_use (ra_slots x)) as [|y l IH]; [reflexivity|]. cbn [map find w_api].
  destruct (Z.eqb_spec (ra_num x) a); [contradiction|]. exact IH.
Qed.

Lemma find_rows : forall x a s, ra_num x = a ->
  find (fun r => (w_api r =? a) && (w_slot r =? s)) (rows x) = option_map (row_of a) (get_slot x s).
Proof.
  intros x a s N. unfold rows, get_slot. rewrite get_find. rewrite N. induction (filter rl_use (ra_slots x)) as [|y l IH]; [reflexivity|].
  cbn [map find w_api w_slot]. rewrite Z.eqb_refl. cbn [andb]. destruct (rl_num y =? s); [reflexivity|exact IH].
Qed.

Lemma row_at_get : forall d a s, uniq _ ra_use ra_num d ->
  row_at d a s = match get_api d a with None => None | Some x => option_map (row_of a) (get_slot x s) end.
Proof.
  intros d a s N. unfold row_at, table, get_api. induction d as [|x d IH]; [reflexivity|].
  unfold uniq in N. cbn [filter get] in *. destruct (ra_use x) eqn:U; cbn [andb].
  - cbn [map] in N. inversion N as [|? ? N1 N2]; subst. cbn [flat_map]. rewrite find_app. destruct (Z.eqb_spec (ra_num x) a) as [E|E].
    + rewrite (find_rows x a s E). destruct (get_slot x s); [reflexivity|]. cbn [option_map]. rewrite IH by exact N2.
      rewrite E in N1. apply get_none in N1. rewrite N1. reflexivity.
    + rewrite find_rows_other by exact E. apply IH. exact N2.
  - apply IH. exact N.
Qed.

Lemma in_apis : forall d a, In a (apis d) <-> get_api d a <> None.
Proof.
  intros d a. unfold apis, get_api. destruct (get ra_use ra_num a d) as [x|] eqn:G.
  - split; [discriminate|]. intros _. apply get_some in G. destruct G as (I & U & K). rewrite <- K. apply in_map. apply filter_In. auto.
  - apply get_none in G. split; [intros H; contradiction|intros H; exfalso; apply H; reflexivity].
Qed.

Lemma mods_of_get : forall d a, uniq _ ra_use ra_num d ->
  mods_of d a = match get_api d a with None => O | Some x => length (filter rl_use (ra_slots x)) end.
Proof.
  intros d a N. unfold mods_of, table, get_api. induction d as [|x d IH]; [reflexivity|].
  unfold uniq in N. cbn [filter get] in *. destruct (ra_use x) eqn:U; cbn [andb].
  - cbn [map] in N. inversion N as [|? ? N1 N2]; subst. cbn [flat_map]. rewrite filter_app, app_length. rewrite (IH N2).
    assert (R : length (filter (fun r => w_api r =? a) (rows x)) = if ra_num x =? a then length (filter rl_use (ra_slots x)) else O).
    { unfold rows. induction (filter rl_use (ra_slots x)) as [|y l IHl]; [destruct (ra_num x =? a); reflexivity|]. cbn [map filter w_api].
      destruct (ra_num x =? a); cbn [length]; [rewrite IHl; reflexivity|exact IHl]. }
    rewrite R. destruct (Z.eqb_spec (ra_num x) a) as [E|E]; [|reflexivity].
    rewrite E in N1. apply get_none in N1. rewrite N1. lia.
  - apply IH. exact N.
Qed.

(** The cell the functions find. *)
Definition cell (d : dev) (a s t : Z) : option rsub :=
  match get_api d a with None => None | Some x => match get_slot x s with None => None | Some y => get_sub y t end end.
Definition slot (d : dev) (a s : Z) : option rslot := match get_api d a with None => None | Some x => get_slot x s end.

Lemma mod_at_slot : forall na ns nt d a s, dev_ok na ns nt d -> mod_at d a s = option_map rl_ident (slot d a s).
Proof.
  intros na ns nt d a s (N & _ & _). unfold mod_at, slot. rewrite row_at_get by exact N.
  destruct (get_api d a) as [x|]; [|reflexivity]. destruct (get_slot x s); reflexivity.
Qed.
Lemma sub_in_cell : forall na ns nt d a s t, dev_ok na ns nt d -> sub_in d a s t = cell d a s t.
Proof.
  intros na ns nt d a s t (N & _ & _). unfold sub_in, cell. rewrite row_at_get by exact N.
  destruct (get_api d a) as [x|]; [|reflexivity]. destruct (get_slot x s) as [y|]; [|reflexivity]. cbn [option_map row_of w_subs].
  unfold get_sub. rewrite get_find. reflexivity.
Qed.
Lemma subs_of_slot : forall na ns nt d a s, dev_ok na ns nt d ->
  subs_of d a s = match slot d a s with None => O | Some y => length (filter rs_use (rl_subs y)) end.
Proof.
  intros na ns nt d a s (N & _ & _). unfold subs_of, slot. rewrite row_at_get by exact N.
  destruct (get_api d a) as [x|]; [|reflexivity]. destruct (get_slot x s) as [y|]; reflexivity.
Qed.

(** Changes, seen through these functions. *)
Lemma slot_in_slot : forall d a s f a' s',
  (forall y, rl_use y = true -> rl_num y = s -> rl_use (f y) = rl_use y /\ rl_num (f y) = rl_num y) ->
  slot (in_slot a s f d) a' s' = if (a' =? a) && (s' =? s) then option_map f (slot d a s) else slot d a' s'.
Proof.
  intros d a s f a' s' F. unfold slot, in_slot, in_api, get_api. rewrite get_change by (intros; split; reflexivity).
  destruct (Z.eqb_spec a' a) as [->|N]; cbn [andb]; [|reflexivity].
  destruct (get ra_use ra_num a d) as [x|] eqn:G; cbn [option_map].
  - unfold get_slot. cbn [ra_slots]. rewrite get_change by exact F. reflexivity.
  - destruct (s' =? s); reflexivity.
Qed.

Lemma slot_drop : forall na ns nt d a s f a' s', dev_ok na ns nt d -> (forall y, rl_use y = true -> rl_num y = s -> rl_use (f y) = false) ->
  slot (in_slot a s f d) a' s' = if (a' =? a) && (s' =? s) then None else slot d a' s'.
Proof.
  intros na ns nt d a s f a' s' D F. unfold slot, in_slot, in_api, get_api. rewrite get_change by (intros; split; reflexivity).
  destruct (Z.eqb_spec a' a) as [->|N]; cbn [andb]; [|reflexivity].
  destruct (get ra_use ra_num a d) as [x|] eqn:G; cbn [option_map].
  - unfold get_slot. cbn [ra_slots]. destruct (get_api_ok na ns nt d a x D G) as ((U & _ & _) & _ & _). rewrite get_drop by assumption. reflexivity.
  - destruct (s' =? s); reflexivity.
Qed.

Lemma cell_slot : forall d a s t, cell d a s t = match slot d a s with None => None | Some y => get_sub y t end.
Proof. intros d a s t. unfold cell, slot. destruct (get_api d a); reflexivity. Qed.

Lemma slot_ok_at : forall na ns nt d a s y, dev_ok na ns nt d -> slot d a s = Some y -> slot_ok nt y.
Proof.
  intros na ns nt d a s y D H. unfold slot in H. destruct (get_api d a) as [x|] eqn:G; [|discriminate].
  destruct (get_api_ok _ _ _ _ _ _ D G) as (A & _ & _). destruct (get_slot_ok _ _ _ _ _ A H) as (R & _ & _). exact R.
Qed.

Lemma apis_in_slot : forall d a s f, apis (in_slot a s f d) = apis d.
Proof. intros d a s f. unfold apis, in_slot, in_api. apply change_nums. intros; split; reflexivity. Qed.

Definition pulled (z : rsub) : rsub :=
  mkRsub false (rs_num z) (rs_ident z) (rs_data z) (rs_own z) (rs_owner z) (rs_fault z) (rs_dem z) (rs_req z).

Lemma cell_pulled : forall na ns nt d a s t a' s' t', dev_ok na ns nt d ->
  cell (in_sub a s t pulled d) a' s' t' = if (a' =? a) && (s' =? s) && (t' =? t) then None else cell d a' s' t'.
Proof.
  intros na ns nt d a s t a' s' t' D. rewrite !cell_slot. unfold in_sub. rewrite slot_in_slot by (intros; split; reflexivity).
  destruct ((a' =? a) && (s' =? s)) eqn:E; cbn [andb]; [|reflexivity].
  apply andb_prop in E. destruct E as [E1 E2]. apply Z.eqb_eq in E1, E2. subst. destruct (slot d a s) as [y|] eqn:Y; cbn [option_map].
  - unfold get_sub. cbn [rl_subs]. apply get_drop; [apply (slot_ok_at na ns nt d a s y D Y)|reflexivity].
  - destruct (t' =? t); reflexivity.
Qed.
Lemma slot_pulled : forall d a s t a' s', option_map rl_ident (slot (in_sub a s t pulled d) a' s') = option_map rl_ident (slot d a' s').
Proof.
  intros d a s t a' s'. unfold in_sub. rewrite slot_in_slot by (intros; split; reflexivity).
  destruct ((a' =? a) && (s' =? s)) eqn:E; [|reflexivity]. apply andb_prop in E. destruct E as [E1 E2]. apply Z.eqb_eq in E1, E2. subst.
  destruct (slot d a s); reflexivity.
Qed.

(** A module is plugged into an empty slot. *)
Lemma slot_plug : forall na ns nt d a s id x l a' s', dev_ok na ns nt d -> get_api d a = Some x -> get_slot x s = None ->
  new_slot nt s id (ra_slots x) = Some l ->
  slot (in_api a (fun x => mkRapi (ra_use x) (ra_num x) l) d) a' s'
  = if (a' =? a) && (s' =? s) then Some (mkRslot true s id (repeat zero_sub nt)) else slot d a' s'.
Proof.
  intros na ns nt d a s id x l a' s' D G Y E. unfold slot, in_api, get_api. rewrite get_change by (intros; split; reflexivity).
  unfold get_api in G. destruct (Z.eqb_spec a' a) as [->|N]; cbn [andb]; [|reflexivity]. rewrite G. cbn [option_map].
  unfold new_slot in E. destruct (take_some _ rl_use rl_num _ _ _ E ltac:(reflexivity) s ltac:(reflexivity) Y) as (y & _ & _ & J & _).
  unfold get_slot. cbn [ra_slots]. rewrite J. reflexivity.
Qed.
Lemma apis_plug : forall d a l, apis (in_api a (fun x => mkRapi (ra_use x) (ra_num x) l) d) = apis d.
Proof. intros d a l. unfold apis, in_api. apply change_nums. intros; split; reflexivity. Qed.
Lemma get_zero : forall t n, get rs_use rs_num t (repeat zero_sub n) = None.
Proof. intros t n. induction n as [|n IH]; [reflexivity|exact IH]. Qed.

Lemma plug_module_cases : forall na ns nt d a s id, dev_ok na ns nt d ->
  (slot d a s = None /\ In a (apis d) /\ (mods_of d a < ns)%nat /\ snd (plug_module nt d a s id) = true /\
   dev_ok na ns nt (fst (plug_module nt d a s id)) /\ apis (fst (plug_module nt d a s id)) = apis d /\
   forall a' s', slot (fst (plug_module nt d a s id)) a' s'
     = if (a' =? a) && (s' =? s) then Some (mkRslot true s id (repeat zero_sub nt)) else slot d a' s') \/
  (slot d a s = None /\ (~ In a (apis d) \/ (ns <= mods_of d a)%nat) /\ plug_module nt d a s id = (d, false)) \/
  (exists y, slot d a s = Some y /\ In a (apis d) /\ plug_module nt d a s id = (d, rl_ident y =? id)).
Proof.
  intros na ns nt d a s id D. pose proof (plug_module_ok na ns nt d a s id D) as W. pose proof (mods_of_get d a (proj1 D)) as M.
  destruct (plug_module nt d a s id) as [d' r] eqn:E0. cbn [fst snd] in *. unfold plug_module in E0.
  assert (SL : slot d a s = match get_api d a with None => None | Some x => get_slot x s end) by reflexivity.
  destruct (get_api d a) as [x|] eqn:G.
  - destruct (get_slot x s) as [y|] eqn:Y.
    + right; right. exists y. split; [exact SL|]. split; [apply in_apis; congruence|]. symmetry. exact E0.
    + destruct (get_api_ok _ _ _ _ _ _ D G) as ((_ & L & _) & _ & _).
      destruct (new_slot nt s id (ra_slots x)) as [l|] eqn:E.
      * injection E0 as <- <-. left. split; [exact SL|]. split; [apply in_apis; congruence|]. split.
        { unfold new_slot in E. destruct (Nat.eq_dec (length (filter rl_use (ra_slots x))) ns) as [Q|Q].
          - rewrite <- L in Q. pose proof (proj2 (take_none _ rl_use (fun _ => mkRslot true s id (rl_subs (zero_slot nt))) (ra_slots x)) Q) as Q'. congruence.
          - pose proof (filter_length_le _ rl_use (ra_slots x)). lia. }
        split; [reflexivity|]. split; [exact W|]. split; [apply apis_plug|].
        intros a' s'. apply (slot_plug na ns nt d a s id x l a' s' D G Y E).
      * right; left. split; [exact SL|]. split; [|symmetry; exact E0]. right.
        apply take_none in E. rewrite M, E. lia.
  - right; left. split; [exact SL|]. split; [|symmetry; exact E0]. left. intros H. apply in_apis in H. contradiction.
Qed.

(** C112: plugging a module. *)
Theorem C112_plug_module : forall na ns nt h a s id d' r, (0 < na)%nat -> plug_module nt (run na ns nt h) a s id = (d', r) ->
  (r = true <-> In a (apis (run na ns nt h)) /\
    (mod_at (run na ns nt h) a s = Some id \/ mod_at (run na ns nt h) a s = None /\ (mods_of (run na ns nt h) a < ns)%nat)) /\
  (r = true -> mod_at d' a s = Some id) /\
  (r = false -> d' = run na ns nt h /\ mod_at d' a s <> Some id) /\
  (forall a' s', (a', s') <> (a, s) -> mod_at d' a' s' = mod_at (run na ns nt h) a' s') /\
  (forall a' s' t, sub_in d' a' s' t = sub_in (run na ns nt h) a' s' t) /\
  apis d' = apis (run na ns nt h).
Proof.
  intros na ns nt h a s id d' r P E. pose proof (run_ok na ns nt h P) as D. revert E D. generalize (run na ns nt h). clear h. intros d E D.
  rewrite (mod_at_slot na ns nt d a s D).
  destruct (plug_module_cases na ns nt d a s id D) as [(Y & A & M & R & W & AA & S')|[(Y & H & R)|(y & Y & A & R)]].
  - rewrite E in *. cbn [fst snd] in *. subst r. split; [split; [intros _; split; [exact A|]; right; split; [rewrite Y; reflexivity|exact M]|reflexivity]|].
    split; [intros _; rewrite (mod_at_slot na ns nt d' a s W), S', !Z.eqb_refl; reflexivity|]. split; [discriminate|].
    split; [intros a' s' N; rewrite (mod_at_slot na ns nt d' a' s' W), (mod_at_slot na ns nt d a' s' D), S'|split; [|exact AA]].
    + destruct (Z.eqb_spec a' a); [|reflexivity]. destruct (Z.eqb_spec s' s); [|reflexivity]. subst. contradiction.
    + intros a' s' t. rewrite (sub_in_cell na ns nt d' a' s' t W), (sub_in_cell na ns nt d a' s' t D), !cell_slot, S'.
      destruct (Z.eqb_spec a' a); [|reflexivity]. destruct (Z.eqb_spec s' s); [|reflexivity]. subst. cbn [andb]. rewrite Y.
      unfold get_sub. cbn [rl_subs]. apply get_zero.
  - rewrite R in E. injection E as <- <-. rewrite Y. cbn [option_map]. split.
    { split; [discriminate|]. intros (A & [Q|[_ Q]]); [discriminate|]. destruct H; [contradiction|lia]. }
    split; [discriminate|]. split; [intros _; split; [reflexivity|]|].
    { rewrite (mod_at_slot na ns nt d a s D), Y. discriminate. }
    split; [reflexivity|]. split; reflexivity.
  - rewrite R in E. injection E as <- <-. rewrite Y. cbn [option_map]. split.
    { rewrite Z.eqb_eq. split; [intros ->; auto|]. intros (_ & [Q|[Q _]]); congruence. }
    split; [rewrite Z.eqb_eq; intros <-; rewrite (mod_at_slot na ns nt d a s D), Y; reflexivity|].
    split; [intros Q; split; [reflexivity|]; rewrite (mod_at_slot na ns nt d a s D), Y; cbn [option_map]; apply Z.eqb_neq in Q; congruence|].
    split; [reflexivity|]. split; reflexivity.
Qed.
Print Assumptions C112_plug_module.

(** C112: pulling a submodule.  It is gone afterwards, nothing else changes; the result is 0
    only if it was taken by a connection and the alarm was sent. *)
Theorem C112_pull_submodule_partial : forall na ns nt h sent a s t d' r al, (0 < na)%nat -> pull_sub sent (run na ns nt h) a s t = (d', r, al) ->
  sub_in d' a s t = None /\
  (forall a' s' t', (a', s', t') <> (a, s, t) -> sub_in d' a' s' t' = sub_in (run na ns nt h) a' s' t') /\
  (forall a' s', mod_at d' a' s' = mod_at (run na ns nt h) a' s') /\
  (sub_in (run na ns nt h) a s t = None -> d' = run na ns nt h /\ r = false /\ al = []) /\
  (forall z, sub_in (run na ns nt h) a s t = Some z ->
    (rs_own z = Ioc \/ rs_own z = Ios -> al = [mkAlarm APull (rs_owner z) a s t] /\ r = sent (mkAlarm APull (rs_owner z) a s t)) /\
    (rs_own z = Free \/ rs_own z = Sol -> al = [] /\ r = false)).
Proof.
  intros na ns nt h sent a s t d' r al P E. pose proof (run_ok na ns nt h P) as D. revert E D. generalize (run na ns nt h). clear h. intros d E D.
  pose proof (pull_sub_ok na ns nt sent d a s t D) as W. rewrite E in W. cbn [fst] in W.
  assert (C : (cell d a s t = None /\ (d', r, al) = (d, false, [])) \/
    (exists z, cell d a s t = Some z /\ d' = in_sub a s t pulled d /\
     (r, al) = if owned z then (sent (mkAlarm APull (rs_owner z) a s t), [mkAlarm APull (rs_owner z) a s t]) else (false, []))).
  { rewrite <- E. unfold pull_sub, cell in *. destruct (get_api d a) as [x|]; [|left; auto]. destruct (get_slot x s) as [y|]; [|left; auto].
    destruct (get_sub y t) as [z|]; [|left; auto]. right. exists z. split; [reflexivity|].
    change (fun z => mkRsub false (rs_num z) (rs_ident z) (rs_data z) (rs_own z) (rs_owner z) (rs_fault z) (rs_dem z) (rs_req z)) with pulled in E.
    destruct (owned z); injection E as <- <- <-; split; reflexivity. }
  destruct C as [(C & Q)|(z & C & -> & Q)].
  - injection Q as -> -> ->. rewrite (sub_in_cell na ns nt d a s t D), C. split; [reflexivity|]. split; [reflexivity|]. split; [reflexivity|].
    split; [auto|]. discriminate.
  - rewrite (sub_in_cell na ns nt _ a s t W), (cell_pulled na ns nt d a s t a s t D), !Z.eqb_refl. cbn [andb]. split; [reflexivity|]. split; [|split; [|split]].
    + intros a' s' t' N. rewrite (sub_in_cell na ns nt _ a' s' t' W), (sub_in_cell na ns nt _ a' s' t' D), (cell_pulled na ns nt d a s t a' s' t' D).
      destruct (Z.eqb_spec a' a); [|reflexivity]. destruct (Z.eqb_spec s' s); [|reflexivity]. destruct (Z.eqb_spec t' t); [|reflexivity]. subst. contradiction.
    + intros a' s'. rewrite (mod_at_slot na ns nt _ a' s' W), (mod_at_slot na ns nt _ a' s' D). apply slot_pulled.
    + rewrite (sub_in_cell na ns nt d a s t D), C. discriminate.
    + rewrite (sub_in_cell na ns nt d a s t D), C. intros z' H. injection H as <-. unfold owned in Q.
      split; intros [H|H]; rewrite H in Q; injection Q as -> ->; auto.
Qed.
Print Assumptions C112_pull_submodule_partial.

(** The second half of pf_cmdev_plug_submodule, on a slot that exists. *)
Definition owner_of (ars : list (nat * expected)) (a s t : Z) : own * option nat :=
  match first_expecting ars a s t with None => (Free, None) | Some (i, _) => (Ioc, Some i) end.
Definition told (ars : list (nat * expected)) (a s t id : Z) : list alarm :=
  match first_expecting ars a s t with
  | None => [] | Some (i, e) => [mkAlarm (if e =? id then APlug else APlugWrong) (Some i) a s t] end.
(** A new submodule. *)
Definition fresh (ars : list (nat * expected)) (a s t id : Z) (data : Z * Z * Z) : rsub :=
  mkRsub true t id data (fst (owner_of ars a s t)) (snd (owner_of ars a s t)) false false false.

Definition plug_in (sent : alarm -> bool) (ars : list (nat * expected)) (d1 : dev) (a s t id : Z) (data : Z * Z * Z) : dev * bool * list alarm :=
  match slot d1 a s with
  | None => (d1, false, [])
  | Some y =>
    match get_sub y t with
    | Some _ => (d1, false, [])
    | None =>
      match new_sub (fresh ars a s t id data) (rl_subs y) with
      | None => (d1, false, [])
      | Some l => (in_slot a s (fun y => mkRslot (rl_use y) (rl_num y) (rl_ident y) l) d1, forallb sent (told ars a s t id), told ars a s t id)
      end
    end
  end.

Lemma plug_sub_eq : forall nt sent ars d a s t mid id data, get_api d a <> None ->
  plug_sub nt sent ars d a s t mid id data =
  (let d1 := match slot d a s with None => fst (plug_module nt d a s mid) | Some _ => d end in
   match cell d a s t with
   | Some z => if rs_ident z =? id then (d1, true, []) else plug_in sent ars d1 a s t id data
   | None => plug_in sent ars d1 a s t id data
   end).
Proof.
  intros nt sent ars d a s t mid id data G. destruct (get_api d a) as [x|] eqn:G0; [|contradiction].
  assert (SL : slot d a s = get_slot x s) by (unfold slot; rewrite G0; reflexivity). rewrite SL. unfold plug_sub, cell. rewrite G0. cbv zeta. set (d1 := match get_slot x s with None => fst (plug_module nt d a s mid) | Some _ => d end).
  assert (Q : match get_api d1 a with
      | Some x0 => match get_slot x0 s with
          | Some y => match get_sub y t with
              | Some _ => (d1, false, [])
              | None => let '(own, owner, al) := match first_expecting ars a s t with
                      | Some (i, e) => (Ioc, Some i, Some (mkAlarm (if e =? id then APlug else APlugWrong) (Some i) a s t))
                      | None => (Free, None, None) end in
                  match new_sub (mkRsub true t id data own owner false false false) (rl_subs y) with
                  | Some l => match al with
                      | Some al0 => (in_slot a s (fun y0 => mkRslot (rl_use y0) (rl_num y0) (rl_ident y0) l) d1, sent al0, [al0])
                      | None => (in_slot a s (fun y0 => mkRslot (rl_use y0) (rl_num y0) (rl_ident y0) l) d1, true, []) end
                  | None => (d1, false, []) end end
          | None => (d1, false, []) end
      | None => (d1, false, []) end = plug_in sent ars d1 a s t id data).
  { unfold plug_in, slot, fresh, owner_of, told. destruct (get_api d1 a) as [x1|]; [|reflexivity]. destruct (get_slot x1 s) as [y|]; [|reflexivity].
    destruct (get_sub y t); [reflexivity|]. destruct (first_expecting ars a s t) as [[i e]|]; cbn [fst snd forallb]; destruct (new_sub _ (rl_subs y)); try reflexivity.
    rewrite andb_true_r. reflexivity. }
  rewrite Q. destruct (get_slot x s) as [y|]; [destruct (get_sub y t) as [z|]; [destruct (rs_ident z =? id)|]|]; reflexivity.
Qed.

Lemma plug_in_cases : forall na ns nt sent ars d a s t id data y, dev_ok na ns nt d -> slot d a s = Some y -> get_sub y t = None ->
  ((length (filter rs_use (rl_subs y)) < nt)%nat /\ exists d', plug_in sent ars d a s t id data = (d', forallb sent (told ars a s t id), told ars a s t id) /\
    dev_ok na ns nt d' /\ apis d' = apis d /\
    (forall a' s', option_map rl_ident (slot d' a' s') = option_map rl_ident (slot d a' s')) /\
    (forall a' s' t', cell d' a' s' t' = if (a' =? a) && (s' =? s) && (t' =? t) then Some (fresh ars a s t id data) else cell d a' s' t')) \/
  ((nt <= length (filter rs_use (rl_subs y)))%nat /\ plug_in sent ars d a s t id data = (d, false, [])).
Proof.
  intros na ns nt sent ars d a s t id data y D Y G. unfold plug_in. rewrite Y, G. destruct (slot_ok_at na ns nt d a s y D Y) as (N & L).
  destruct (new_sub (fresh ars a s t id data) (rl_subs y)) as [l|] eqn:E.
  - left. split.
    { unfold new_sub in E. destruct (Nat.eq_dec (length (filter rs_use (rl_subs y))) nt) as [Q|Q].
      - rewrite <- L in Q. pose proof (proj2 (take_none _ rs_use (fun _ => fresh ars a s t id data) (rl_subs y)) Q). congruence.
      - pose proof (filter_length_le _ rs_use (rl_subs y)). lia. }
    eexists. split; [reflexivity|]. unfold new_sub in E.
    destruct (take_some _ rs_use rs_num _ _ _ E ltac:(reflexivity) t ltac:(reflexivity) G) as (q & _ & _ & J & _ & V & M).
    split; [|split; [apply apis_in_slot|split]].
    + apply in_slot_ok; [exact D|left; intros; split; reflexivity|]. intros y' _ _ _. unfold slot_ok. cbn [rl_subs]. split; [apply V; exact N|congruence].
    + intros a' s'. rewrite slot_in_slot by (intros; split; reflexivity). destruct ((a' =? a) && (s' =? s)) eqn:Q; [|reflexivity].
      apply andb_prop in Q. destruct Q as [Q1 Q2]. apply Z.eqb_eq in Q1, Q2. subst. rewrite Y. reflexivity.
    + intros a' s' t'. rewrite !cell_slot. rewrite slot_in_slot by (intros; split; reflexivity). destruct ((a' =? a) && (s' =? s)) eqn:Q; [|reflexivity].
      apply andb_prop in Q. destruct Q as [Q1 Q2]. apply Z.eqb_eq in Q1, Q2. subst. rewrite Y. cbn [option_map andb]. unfold get_sub. cbn [rl_subs].
      apply J.
  - right. split; [|reflexivity]. apply take_none in E. lia.
Qed.

(** There is room for a submodule. *)
Definition can_plug (ns nt : nat) (d : dev) (a s t : Z) : Prop :=
  In a (apis d) /\ sub_in d a s t = None /\
  (mod_at d a s = None /\ (mods_of d a < ns)%nat \/ mod_at d a s <> None /\ (subs_of d a s < nt)%nat).

(** C112: plugging a submodule. *)
Theorem C112_plug_submodule_partial : forall na ns nt h sent ars a s t mid id data d' r al, (0 < na)%nat -> (0 < nt)%nat ->
  plug_sub nt sent ars (run na ns nt h) a s t mid id data = (d', r, al) ->
  (can_plug ns nt (run na ns nt h) a s t ->
    sub_in d' a s t = Some (fresh ars a s t id data) /\
    mod_at d' a s = Some (match mod_at (run na ns nt h) a s with Some m => m | None => mid end) /\
    al = told ars a s t id /\ r = forallb sent al) /\
  (~ can_plug ns nt (run na ns nt h) a s t ->
    d' = run na ns nt h /\ al = [] /\ (r = true <-> exists z, sub_in (run na ns nt h) a s t = Some z /\ rs_ident z = id)) /\
  (forall a' s' t', (a', s', t') <> (a, s, t) -> sub_in d' a' s' t' = sub_in (run na ns nt h) a' s' t') /\
  (forall a' s', (a', s') <> (a, s) -> mod_at d' a' s' = mod_at (run na ns nt h) a' s') /\
  apis d' = apis (run na ns nt h).
Proof.
  intros na ns nt h sent ars a s t mid id data d' r al P PT E. pose proof (run_ok na ns nt h P) as D. revert E D. generalize (run na ns nt h). clear h. intros d E D.
  unfold can_plug. rewrite (mod_at_slot na ns nt d a s D), (sub_in_cell na ns nt d a s t D), (subs_of_slot na ns nt d a s D).
  destruct (get_api d a) as [x|] eqn:G.
  2: { assert (A : ~ In a (apis d)) by (intros H; apply in_apis in H; contradiction).
       assert (C : cell d a s t = None) by (unfold cell; rewrite G; reflexivity).
       unfold plug_sub in E. rewrite G in E. injection E as <- <- <-. split; [intros (H & _); contradiction|]. split.
       { intros _. split; [reflexivity|]. split; [reflexivity|]. rewrite C. split; [discriminate|]. intros (z & H & _). discriminate. }
       split; [reflexivity|]. split; reflexivity. }
  assert (A : In a (apis d)) by (apply in_apis; congruence).
  rewrite plug_sub_eq in E by congruence. cbv zeta in E.
  destruct (slot d a s) as [y|] eqn:Y.
  - (* the slot has a module *)
    assert (CS : cell d a s t = get_sub y t) by (rewrite cell_slot, Y; reflexivity). cbn [option_map].
    destruct (get_sub y t) as [z|] eqn:Z.
    + rewrite CS in *. assert (Q : (d', r, al) = (d, rs_ident z =? id, [])).
      { rewrite <- E. destruct (rs_ident z =? id); [reflexivity|]. unfold plug_in. rewrite Y, Z. reflexivity. }
      injection Q as -> -> ->. split; [intros (_ & H & _); discriminate|]. split.
      { intros _. split; [reflexivity|]. split; [reflexivity|]. rewrite Z.eqb_eq. split; [intros H; exists z; auto|]. intros (z' & H & K). congruence. }
      split; [reflexivity|]. split; reflexivity.
    + rewrite CS in *. destruct (plug_in_cases na ns nt sent ars d a s t id data y D Y Z) as [(R & d1 & Q & W & AA & M & C)|(R & Q)]; rewrite Q in E; injection E as <- <- <-.
      * split; [intros _|split; [|split; [|split; [|exact AA]]]].
        -- rewrite (sub_in_cell na ns nt _ a s t W), C, !Z.eqb_refl. split; [reflexivity|].
           rewrite (mod_at_slot na ns nt _ a s W), M, Y. split; [reflexivity|]. split; reflexivity.
        -- intros H. exfalso. apply H. split; [exact A|]. split; [reflexivity|]. right. split; [discriminate|exact R].
        -- intros a' s' t' N. rewrite (sub_in_cell na ns nt _ a' s' t' W), (sub_in_cell na ns nt _ a' s' t' D), C.
           destruct (Z.eqb_spec a' a); [|reflexivity]. destruct (Z.eqb_spec s' s); [|reflexivity]. destruct (Z.eqb_spec t' t); [|reflexivity]. subst. contradiction.
        -- intros a' s' _. rewrite (mod_at_slot na ns nt _ a' s' W), (mod_at_slot na ns nt _ a' s' D). apply M.
      * split; [intros (_ & _ & [[H _]|[_ H]]); [discriminate|lia]|]. split.
        { intros _. split; [reflexivity|]. split; [reflexivity|]. split; [discriminate|]. intros (z & H & _). discriminate. }
        split; [reflexivity|]. split; reflexivity.
  - (* the module is plugged first *)
    assert (CS : cell d a s t = None) by (rewrite cell_slot, Y; reflexivity). rewrite CS in *. cbn [option_map].
    destruct (plug_module_cases na ns nt d a s mid D) as [(_ & _ & M & R & W & AA & S')|[(_ & H & R)|(y & Y' & _)]]; [| |congruence].
    + destruct (plug_module nt d a s mid) as [d1 r1]. cbn [fst snd] in *.
      assert (Y1 : slot d1 a s = Some (mkRslot true s mid (repeat zero_sub nt))) by (rewrite S', !Z.eqb_refl; reflexivity).
      assert (C1 : forall a' s' t', cell d1 a' s' t' = cell d a' s' t').
      { intros a' s' t'. rewrite !cell_slot, S'. destruct ((a' =? a) && (s' =? s)) eqn:Q; [|reflexivity].
        apply andb_prop in Q. destruct Q as [Q1 Q2]. apply Z.eqb_eq in Q1, Q2. subst. rewrite Y. unfold get_sub. cbn [rl_subs]. apply get_zero. }
      destruct (plug_in_cases na ns nt sent ars d1 a s t id data _ W Y1 ltac:(unfold get_sub; apply get_zero)) as [(R1 & d2 & Q & W2 & AA2 & M2 & C2)|(R1 & Q)].
      * rewrite Q in E. injection E as <- <- <-. split; [intros _|split; [|split; [|split; [|congruence]]]].
        -- rewrite (sub_in_cell na ns nt _ a s t W2), C2, !Z.eqb_refl. split; [reflexivity|].
           rewrite (mod_at_slot na ns nt _ a s W2), M2, Y1. split; [reflexivity|]. split; reflexivity.
        -- intros H. exfalso. apply H. split; [exact A|]. split; [reflexivity|]. left. split; [reflexivity|exact M].
        -- intros a' s' t' N. rewrite (sub_in_cell na ns nt _ a' s' t' W2), (sub_in_cell na ns nt _ a' s' t' D), C2.
           rewrite C1. destruct (Z.eqb_spec a' a); [|reflexivity]. destruct (Z.eqb_spec s' s); [|reflexivity]. destruct (Z.eqb_spec t' t); [|reflexivity]. subst. contradiction.
        -- intros a' s' N. rewrite (mod_at_slot na ns nt _ a' s' W2), (mod_at_slot na ns nt _ a' s' D), M2, S'.
           destruct (Z.eqb_spec a' a); [|reflexivity]. destruct (Z.eqb_spec s' s); [|reflexivity]. subst. contradiction.
      * exfalso. cbn [rl_subs] in R1. assert (F0 : filter rs_use (repeat zero_sub nt) = []) by (clear; induction nt as [|n IH]; [reflexivity|exact IH]).
        rewrite F0 in R1. cbn [length] in R1. lia.
    + rewrite R in E. cbn [fst] in E. unfold plug_in in E. rewrite Y in E. injection E as <- <- <-.
      split; [intros (_ & _ & [[_ K]|[K _]]); [destruct H; [contradiction|lia]|exfalso; apply K; reflexivity]|]. split.
      { intros _. split; [reflexivity|]. split; [reflexivity|]. split; [discriminate|]. intros (z & K & _). discriminate. }
      split; [reflexivity|]. split; reflexivity.
Qed.
Print Assumptions C112_plug_submodule_partial.

Lemma get_nth : forall A (use : A -> bool) num l ix z, uniq A use num l -> nth_error l ix = Some z -> use z = true -> get use num (num z) l = Some z.
Proof.
  intros A use num l. induction l as [|y l IH]; intros ix z N E U; [destruct ix; discriminate|].
  unfold uniq in N. cbn [filter] in N. cbn [get]. destruct ix as [|ix].
  - injection E as ->. rewrite U, Z.eqb_refl. reflexivity.
  - cbn [nth_error] in E. destruct (use y) eqn:V; cbn [andb].
    + cbn [map] in N. inversion N as [|? ? N1 N2]; subst. destruct (Z.eqb_spec (num y) (num z)) as [Q|Q].
      * exfalso. apply N1. rewrite Q. apply in_map. apply filter_In. split; [eapply nth_error_In; exact E|exact U].
      * apply (IH ix); assumption.
    + apply (IH ix); assumption.
Qed.

Lemma change_nth : forall A (use : A -> bool) num f l ix z, uniq A use num l -> nth_error l ix = Some z -> use z = true ->
  change use num (num z) f l = firstn ix l ++ f z :: skipn (S ix) l.
Proof.
  intros A use num f l. induction l as [|y l IH]; intros ix z N E U; [destruct ix; discriminate|].
  unfold uniq in N. cbn [filter] in N. cbn [change]. destruct ix as [|ix].
  - injection E as ->. rewrite U, Z.eqb_refl. reflexivity.
  - cbn [nth_error] in E. cbn [firstn]. change (skipn (S (S ix)) (y :: l)) with (skipn (S ix) l). destruct (use y) eqn:V; cbn [andb].
    + cbn [map] in N. inversion N as [|? ? N1 N2]; subst. destruct (Z.eqb_spec (num y) (num z)) as [Q|Q].
      * exfalso. apply N1. rewrite Q. apply in_map. apply filter_In. split; [eapply nth_error_In; exact E|exact U].
      * rewrite (IH ix z N2 E U). reflexivity.
    + rewrite (IH ix z N E U). reflexivity.
Qed.

(** Pulling this submodule succeeds. *)
Definition pull_good (sent : alarm -> bool) (a s : Z) (z : rsub) : bool := owned z && sent (mkAlarm APull (rs_owner z) a s (rs_num z)).

Lemma skipn_nth : forall A (l : list A) ix z, nth_error l ix = Some z -> skipn ix l = z :: skipn (S ix) l.
Proof.
  intros A l. induction l as [|y l IH]; intros ix z E; [destruct ix; discriminate|]. destruct ix; [injection E as ->; reflexivity|].
  cbn [nth_error] in E. change (skipn (S ix) (y :: l)) with (skipn ix l). change (skipn (S (S ix)) (y :: l)) with (skipn (S ix) l). apply IH. exact E.
Qed.

Lemma skipn_firstn_app : forall A (x : A) ix l r, (ix <= length l)%nat -> skipn (S ix) (firstn ix l ++ x :: r) = r.
Proof.
  intros A x ix. induction ix as [|ix IH]; intros l r L; [reflexivity|]. destruct l as [|y l]; [cbn [length] in L; lia|].
  cbn [firstn app]. change (skipn (S (S ix)) (y :: firstn ix l ++ x :: r)) with (skipn (S ix) (firstn ix l ++ x :: r)). apply IH. cbn [length] in L. lia.
Qed.
Lemma firstn_firstn_app : forall A (x : A) ix l r, (ix <= length l)%nat -> firstn (S ix) (firstn ix l ++ x :: r) = firstn ix l ++ [x].
Proof.
  intros A x ix. induction ix as [|ix IH]; intros l r L; [reflexivity|]. destruct l as [|y l]; [cbn [length] in L; lia|].
  cbn [firstn app]. f_equal. apply IH. cbn [length] in L. lia.
Qed.

Lemma pull_cells_spec : forall na ns nt sent a s n ix d y d' ok al, dev_ok na ns nt d -> slot d a s = Some y -> (ix + n = length (rl_subs y))%nat ->
  pull_cells n ix sent d a s = (d', ok, al) ->
  filter rs_use (firstn ix (rl_subs y)) = [] ->
  dev_ok na ns nt d' /\ apis d' = apis d /\
  (forall a' s', (a', s') <> (a, s) -> slot d' a' s' = slot d a' s') /\
  ok = forallb (pull_good sent a s) (filter rs_use (skipn ix (rl_subs y))) /\
  exists y', slot d' a s = Some y' /\ rl_ident y' = rl_ident y /\ (forall t, get_sub y' t = None \/ get_sub y' t = get_sub y t) /\
    (ok = true -> filter rs_use (rl_subs y') = [] /\ al = map (fun z => mkAlarm APull (rs_owner z) a s (rs_num z)) (filter rs_use (skipn ix (rl_subs y)))).
Proof.
  intros na ns nt sent a s n. induction n as [|n IH]; intros ix d y d' ok al D Y L E FI; cbn [pull_cells] in E.
  - injection E as <- <- <-. split; [exact D|]. split; [reflexivity|]. split; [reflexivity|].
    split; [rewrite skipn_all2 by lia; reflexivity|]. exists y. split; [exact Y|]. split; [reflexivity|]. split; [auto|].
    intros _. rewrite firstn_all2 in FI by lia. split; [exact FI|]. rewrite skipn_all2 by lia. reflexivity.
  - assert (CA : cell_at d a s ix = nth_error (rl_subs y) ix).
    { unfold cell_at. unfold slot in Y. destruct (get_api d a); [|discriminate]. rewrite Y. reflexivity. }
    rewrite CA in E. destruct (nth_error (rl_subs y) ix) as [z|] eqn:N; [|apply nth_error_None in N; lia].
    rewrite (skipn_nth _ _ _ _ N). cbn [filter]. destruct (rs_use z) eqn:U.
    + destruct (slot_ok_at na ns nt d a s y D Y) as (UN & LN).
      assert (GZ : get_sub y (rs_num z) = Some z) by (exact (get_nth _ rs_use rs_num _ ix z UN N U)).
      assert (PS : pull_sub sent d a s (rs_num z) = (in_sub a s (rs_num z) pulled d, pull_good sent a s z, if owned z then [mkAlarm APull (rs_owner z) a s (rs_num z)] else [])).
      { unfold pull_sub. unfold slot in Y. destruct (get_api d a); [|discriminate]. rewrite Y, GZ. unfold pull_good. destruct (owned z); reflexivity. }
      rewrite PS in E. set (d1 := in_sub a s (rs_num z) pulled d) in *.
      assert (D1 : dev_ok na ns nt d1) by (apply in_sub_ok; [exact D|right; reflexivity]).
      assert (O1 : forall a' s', (a', s') <> (a, s) -> slot d1 a' s' = slot d a' s').
      { intros a' s' NE. unfold d1, in_sub. rewrite slot_in_slot by (intros; split; reflexivity).
        destruct (Z.eqb_spec a' a); [|reflexivity]. destruct (Z.eqb_spec s' s); [|reflexivity]. subst. contradiction. }
      assert (Y1 : slot d1 a s = Some (mkRslot (rl_use y) (rl_num y) (rl_ident y) (firstn ix (rl_subs y) ++ pulled z :: skipn (S ix) (rl_subs y)))).
      { unfold d1, in_sub. rewrite slot_in_slot by (intros; split; reflexivity). rewrite !Z.eqb_refl, Y. cbn [andb option_map].
        rewrite (change_nth _ rs_use rs_num pulled _ ix z UN N U). reflexivity. }
      assert (G1 : forall t, get_sub (mkRslot (rl_use y) (rl_num y) (rl_ident y) (firstn ix (rl_subs y) ++ pulled z :: skipn (S ix) (rl_subs y))) t = None \/
        get_sub (mkRslot (rl_use y) (rl_num y) (rl_ident y) (firstn ix (rl_subs y) ++ pulled z :: skipn (S ix) (rl_subs y))) t = get_sub y t).
      { intros t. unfold get_sub. cbn [rl_subs]. rewrite <- (change_nth _ rs_use rs_num pulled _ ix z UN N U).
        rewrite get_drop by (try exact UN; reflexivity). destruct (t =? rs_num z); auto. }
      cbn [forallb map]. destruct (pull_good sent a s z) eqn:PG.
      * destruct (pull_cells n (S ix) sent d1 a s) as [[d2 ok2] al2] eqn:E2. injection E as <- <- <-.
        assert (LI : (ix <= length (rl_subs y))%nat) by lia.
        destruct (IH (S ix) d1 _ d2 ok2 al2 D1 Y1) as (D2 & A2 & O2 & K2 & y2 & Y2 & I2 & G2 & F2).
        { cbn [rl_subs]. rewrite app_length, firstn_length, Nat.min_l by lia. cbn [length]. rewrite skipn_length. lia. }
        { exact E2. }
        { cbn [rl_subs]. rewrite firstn_firstn_app by exact LI. rewrite filter_app, FI. reflexivity. }
        split; [exact D2|]. split; [rewrite A2; apply apis_in_slot|]. split; [intros a' s' NE; rewrite O2 by exact NE; apply O1; exact NE|].
        split; [rewrite K2; cbn [rl_subs]; rewrite skipn_firstn_app by exact LI; reflexivity|].
        exists y2. split; [exact Y2|]. split; [rewrite I2; reflexivity|]. split.
        2:{ intros K. destruct (F2 K) as [F3 F4]. split; [exact F3|]. rewrite F4. cbn [rl_subs]. rewrite skipn_firstn_app by exact LI.
            unfold pull_good in PG. apply andb_prop in PG. destruct PG as [PG _]. rewrite PG. reflexivity. }
        intros t. destruct (G2 t) as [H|H]; [left; exact H|]. rewrite H. apply G1.
      * injection E as <- <- <-. split; [exact D1|]. split; [apply apis_in_slot|]. split; [exact O1|]. split; [reflexivity|].
        eexists. split; [exact Y1|]. split; [reflexivity|]. split; [exact G1|discriminate].
    + assert (F1 : filter rs_use (firstn (S ix) (rl_subs y)) = []).
      { rewrite <- (firstn_skipn ix (rl_subs y)). rewrite (skipn_nth _ _ _ _ N).
        rewrite firstn_firstn_app by lia. rewrite filter_app, FI. cbn [filter app]. rewrite U. reflexivity. }
      exact (IH (S ix) d y d' ok al D Y ltac:(lia) E F1).
Qed.

Lemma get_all_none : forall A (use : A -> bool) num l t, filter use l = [] -> get use num t l = None.
Proof. intros A use num l t F. apply get_none. rewrite F. intros []. Qed.

(** A submodule is taken by a connection, and its alarm is sent. *)
Definition leaves (sent : alarm -> bool) (a s : Z) (z : rsub) : Prop :=
  (rs_own z = Ioc \/ rs_own z = Ios) /\ sent (mkAlarm APull (rs_owner z) a s (rs_num z)) = true.

(** C112: pulling a module. *)
Theorem C112_pull_module_partial : forall na ns nt h sent a s d' r al, (0 < na)%nat -> pull_module sent (run na ns nt h) a s = (d', r, al) ->
  (mod_at (run na ns nt h) a s = None -> d' = run na ns nt h /\ r = false /\ al = []) /\
  (forall w, row_at (run na ns nt h) a s = Some w ->
    (r = true <-> forall z, In z (w_subs w) -> leaves sent a s z) /\
    (r = true -> mod_at d' a s = None /\ (forall t, sub_in d' a s t = None) /\
      al = map (fun z => mkAlarm APull (rs_owner z) a s (rs_num z)) (w_subs w)) /\
    (r = false -> mod_at d' a s = mod_at (run na ns nt h) a s /\
      forall t, sub_in d' a s t = None \/ sub_in d' a s t = sub_in (run na ns nt h) a s t)) /\
  (forall a' s', (a', s') <> (a, s) -> row_at d' a' s' = row_at (run na ns nt h) a' s') /\
  apis d' = apis (run na ns nt h).
Proof.
  intros na ns nt h sent a s d' r al P E. pose proof (run_ok na ns nt h P) as D. revert E D. generalize (run na ns nt h). clear h. intros d E D.
  pose proof (pull_module_ok na ns nt sent d a s D) as W. rewrite E in W. cbn [fst] in W.
  rewrite (mod_at_slot na ns nt d a s D).
  assert (RA : forall d a s, dev_ok na ns nt d -> row_at d a s = option_map (row_of a) (slot d a s)).
  { intros d0 a0 s0 (N0 & _). unfold slot. rewrite row_at_get by exact N0. destruct (get_api d0 a0); reflexivity. }
  unfold pull_module in E. assert (SL : slot d a s = match get_api d a with None => None | Some x => get_slot x s end) by reflexivity.
  destruct (slot d a s) as [y|] eqn:Y.
  - destruct (get_api d a) as [x|]; [|discriminate]. rewrite <- SL in E.
    destruct (pull_cells (length (rl_subs y)) 0 sent d a s) as [[d1 ok] al1] eqn:E1.
    destruct (pull_cells_spec na ns nt sent a s (length (rl_subs y)) 0%nat d y d1 ok al1 D Y eq_refl E1 eq_refl) as (D1 & A1 & O1 & K1 & y1 & Y1 & I1 & G1 & F1).
    cbn [skipn] in K1. split; [discriminate|].
    assert (KK : ok = true <-> forall z, In z (filter rs_use (rl_subs y)) -> leaves sent a s z).
    { rewrite K1, forallb_forall. split; intros H z I; specialize (H z I); unfold pull_good, leaves, owned in *.
      - apply andb_prop in H. destruct H as [H1 H2]. split; [|exact H2]. destruct (rs_own z); try discriminate; auto.
      - destruct H as [[H1|H1] H2]; rewrite H1, H2; reflexivity. }
    destruct ok; injection E as <- <- <-.
    + split; [|split].
      * intros w R. rewrite (RA d a s D), Y in R. injection R as <-. cbn [row_of w_subs]. split; [exact KK|]. split; [|discriminate]. intros _.
        rewrite (mod_at_slot na ns nt _ a s W), (slot_drop na ns nt d1 a s _ a s D1), !Z.eqb_refl by reflexivity. split; [reflexivity|].
        split; [|exact (proj2 (F1 eq_refl))]. intros t. rewrite (sub_in_cell na ns nt _ a s t W), cell_slot, (slot_drop na ns nt d1 a s _ a s D1), !Z.eqb_refl by reflexivity. reflexivity.
      * intros a' s' NE. rewrite (RA _ a' s' W), (RA _ a' s' D), (slot_drop na ns nt d1 a s _ a' s' D1) by reflexivity.
        destruct (Z.eqb_spec a' a); [destruct (Z.eqb_spec s' s)|]; [subst; contradiction| |]; cbn [andb]; rewrite O1 by exact NE; reflexivity.
      * rewrite apis_in_slot. exact A1.
    + split; [|split].
      * intros w R. rewrite (RA d a s D), Y in R. injection R as <-. cbn [row_of w_subs]. split; [exact KK|]. split; [discriminate|]. intros _.
        rewrite (mod_at_slot na ns nt _ a s W), Y1. cbn [option_map]. rewrite I1. split; [reflexivity|].
        intros t. rewrite (sub_in_cell na ns nt _ a s t W), (sub_in_cell na ns nt _ a s t D), !cell_slot, Y, Y1. apply G1.
      * intros a' s' NE. rewrite (RA _ a' s' W), (RA _ a' s' D), O1 by exact NE. reflexivity.
      * exact A1.
  - assert (Q : (d', r, al) = (d, false, [])).
    { rewrite <- E. destruct (get_api d a) as [x|]; [|reflexivity]. rewrite <- SL. reflexivity. }
    injection Q as -> -> ->. split; [auto|]. split; [|split; reflexivity].
    intros w R. rewrite (RA d a s D), Y in R. discriminate.
Qed.
Print Assumptions C112_pull_module_partial.

(** C112: after every history a slot holds at most one module, a subslot at most one submodule. *)
Lemma flat_nodup : forall d, uniq _ ra_use ra_num d -> allin _ ra_use (fun x => uniq _ rl_use rl_num (ra_slots x)) d ->
  NoDup (map (fun w => (w_api w, w_slot w)) (table d)).
Proof.
  intros d. unfold uniq, table. induction d as [|x d IH]; intros N A; [constructor|]. cbn [filter] in *.
  assert (A' : allin _ ra_use (fun x => uniq _ rl_use rl_num (ra_slots x)) d) by (intros y I U; apply A; [right; exact I|exact U]).
  destruct (ra_use x) eqn:U; [|exact (IH N A')]. cbn [map flat_map] in *. inversion N as [|? ? N1 N2]; subst. rewrite map_app.
  specialize (IH N2 A'). specialize (A x (or_introl eq_refl) U). unfold uniq in A. unfold rows at 1. rewrite map_map. cbn [w_api w_slot].
  revert A. generalize (filter rl_use (ra_slots x)). intros l. induction l as [|y l IHl]; intros A; cbn [map app]; [exact IH|].
  cbn [map] in A. inversion A as [|? ? A1 A2]; subst. constructor; [|exact (IHl A2)].
  rewrite in_app_iff, !in_map_iff. intros [(y2 & Q & I)|(w & Q & I)].
  - injection Q as Q. apply A1. rewrite <- Q. apply in_map. exact I.
  - injection Q as Q1 Q2. apply in_flat_map in I. destruct I as (x2 & I1 & I2). unfold rows in I2. apply in_map_iff in I2.
    destruct I2 as (y2 & Q3 & _). subst w. cbn [w_api] in Q1. apply N1. rewrite <- Q1. apply in_map. exact I1.
Qed.

Theorem C112_unique : forall na ns nt h, (0 < na)%nat ->
  NoDup (apis (run na ns nt h)) /\ NoDup (map (fun w => (w_api w, w_slot w)) (table (run na ns nt h))) /\
  (forall w, In w (table (run na ns nt h)) -> NoDup (map rs_num (w_subs w)) /\ (length (w_subs w) <= nt)%nat) /\
  (length (apis (run na ns nt h)) <= na)%nat /\ (forall a, mods_of (run na ns nt h) a <= ns)%nat.
Proof.
  intros na ns nt h P. pose proof (run_ok na ns nt h P) as D. revert D. generalize (run na ns nt h). intros d (N & L & A).
  split; [exact N|]. split; [apply flat_nodup; [exact N|]; intros x I U; exact (proj1 (A x I U))|]. split; [|split].
  - intros w I. apply in_flat_map in I. destruct I as (x & I1 & I2). apply filter_In in I1. destruct I1 as [I1 U1].
    unfold rows in I2. apply in_map_iff in I2. destruct I2 as (y & <- & I2). apply filter_In in I2. destruct I2 as [I2 U2]. cbn [w_subs].
    destruct (A x I1 U1) as (_ & _ & A2). destruct (A2 y I2 U2) as (A3 & A4). split; [exact A3|].
    pose proof (filter_length_le _ rs_use (rl_subs y)). lia.
  - unfold apis. rewrite map_length. pose proof (filter_length_le _ ra_use d). lia.
  - intros a. rewrite mods_of_get by exact N. destruct (get_api d a) as [x|] eqn:G; [|lia].
    destruct (get_some _ _ _ _ _ _ G) as (I & U & _). destruct (A x I U) as (_ & A2 & _). pose proof (filter_length_le _ rl_use (ra_slots x)). lia.
Qed.
Print Assumptions C112_unique.

(** C112: a submodule that no connection holds is pulled, but the answer is failure. *)
Theorem C112_pull_free_refuted : exists na ns nt h a s t, let d := run na ns nt h in
  sub_in d a s t <> None /\ forall sent, sub_in (fst (fst (pull_sub sent d a s t))) a s t = None /\ snd (fst (pull_sub sent d a s t)) = false.
Proof.
  exists 1%nat, 2%nat, 2%nat, [PlugModule 0 1 50; PlugSub [] (fun _ => true) 0 1 1 50 60 (0, 0, 0)], 0, 1, 1. split; [discriminate|].
  intros sent. split; reflexivity.
Qed.
Print Assumptions C112_pull_free_refuted.

(** C112: a module with two submodules no connection holds takes three calls to pull,
    and the first two answer failure. *)
Theorem C112_pull_module_free_refuted : exists na ns nt h a s, let d := run na ns nt h in
  subs_of d a s = 2%nat /\ forall sent,
    let '(d1, r1, _) := pull_module sent d a s in let '(d2, r2, _) := pull_module sent d1 a s in let '(d3, r3, _) := pull_module sent d2 a s in
    (r1, r2, r3) = (false, false, true) /\ (subs_of d1 a s, subs_of d2 a s) = (1%nat, 0%nat) /\ mod_at d2 a s <> None /\ mod_at d3 a s = None.
Proof.
  exists 1%nat, 2%nat, 2%nat, [PlugSub [] (fun _ => true) 0 1 1 50 60 (0, 0, 0); PlugSub [] (fun _ => true) 0 1 2 50 61 (0, 0, 0)], 0, 1.
  split; [reflexivity|]. intros sent. vm_compute. split; [reflexivity|]. split; [reflexivity|]. split; [discriminate|reflexivity].
Qed.
Print Assumptions C112_pull_module_free_refuted.

(** C112: the answer is failure although the submodule has been plugged. *)
Theorem C112_plug_alarm_refuted : exists na ns nt h ars a s t mid id data, let d := run na ns nt h in
  sub_at d a s t = None /\ sub_at (fst (fst (plug_sub nt (fun _ => false) ars d a s t mid id data))) a s t = Some (id, data) /\
  snd (fst (plug_sub nt (fun _ => false) ars d a s t mid id data)) = false.
Proof.
  exists 1%nat, 2%nat, 2%nat, [], [(0%nat, [(0, [(1, [(1, 60)])])])], 0, 1, 1, 50, 60, (1, 2, 3). split; [reflexivity|]. split; reflexivity.
Qed.
Print Assumptions C112_plug_alarm_refuted.

(** C112: a submodule is taken for a module other than the one in the slot, and a second
    plug with the same ident number and other data answers success and keeps the old data. *)
Theorem C112_plug_other_refuted : exists na ns nt h sent a s t mid id data data', let d := run na ns nt h in
  mod_at d a s <> None /\ mod_at d a s <> Some mid /\
  (let '(d1, r1, _) := plug_sub nt sent [] d a s t mid id data in let '(d2, r2, _) := plug_sub nt sent [] d1 a s t mid id data' in
   r1 = true /\ r2 = true /\ data' <> data /\ sub_at d2 a s t = Some (id, data)).
Proof.
  exists 1%nat, 2%nat, 2%nat, [PlugModule 0 1 50], (fun _ => true), 0, 1, 1, 51, 60, (1, 2, 3), (1, 2, 4).
  split; [discriminate|]. split; [discriminate|]. vm_compute. split; [reflexivity|]. split; [reflexivity|]. split; [discriminate|reflexivity].
Qed.
Print Assumptions C112_plug_other_refuted.

(** A history with two APIs, modules and submodules that meets the hypotheses. *)
Example C112_example :
  let d := run 2 2 2 [PlugModule 0 1 50; PlugSub [(3%nat, [(0, [(1, [(1, 60)])])])] (fun _ => true) 0 1 1 50 60 (1, 4, 0); NewApi 7;
                      PlugSub [] (fun _ => true) 7 2 5 52 62 (2, 0, 4); PullSub (fun _ => true) 7 2 5] in
  apis d = [0; 7] /\ mod_at d 0 1 = Some 50 /\ mod_at d 7 2 = Some 52 /\ sub_at d 0 1 1 = Some (60, (1, 4, 0)) /\ sub_at d 7 2 5 = None /\
  snd (fst (pull_module (fun _ => true) d 0 1)) = true /\ can_plug 2 2 d 7 2 9 /\ ~ can_plug 2 2 d 8 2 9.
Proof.
  split; [reflexivity|]. split; [reflexivity|]. split; [reflexivity|]. split; [reflexivity|]. split; [reflexivity|]. split; [reflexivity|].
  split; [split; [right; left; reflexivity|]; split; [reflexivity|]; right; split; [discriminate|]; apply Nat.ltb_lt; reflexivity|].
  intros ([H|[H|[]]] & _); discriminate H.
Qed.
