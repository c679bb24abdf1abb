(** Properties C20 and C21 of the Ethernet dispatcher. *)
From Coq Require Import List ZArith Arith Bool Lia.
From Verif Require Import Base CpmModel CpmProps EthModel.
Import ListNotations.
Local Open Scope Z_scope.

(** * Specification *)

(** The handler most recently registered and not removed. *)
Definition reg_step (id : Z) (r : option Z) (o : eop) : option Z :=
  match o with
  | EAdd i h => if i =? id then Some h else r
  | ERemove i => if i =? id then None else r
  end.
Definition registered (ops : list eop) (id : Z) : option Z := fold_left (reg_step id) ops None.

(** Number of registrations in force: additions minus effective removals. *)
Fixpoint in_force (ops : list eop) : nat :=   (* newest first *)
  match ops with
  | [] => 0%nat
  | EAdd _ _ :: r => S (in_force r)
  | ERemove i :: r => match registered (rev r) i with Some _ => (in_force r - 1)%nat | None => in_force r end
  end.

(** Users never register a frame id that is registered, and never more than
    [cap] at a time. *)
Inductive orderly (cap : nat) : list eop -> Prop :=
| or_nil : orderly cap []
| or_add : forall ops id h, orderly cap ops -> registered ops id = None ->
    (in_force (rev ops) < cap)%nat -> orderly cap (ops ++ [EAdd id h])
| or_rem : forall ops id, orderly cap ops -> orderly cap (ops ++ [ERemove id]).

(** A frame: addresses, VLAN tags, ethertype and payload. *)
Definition eth_frame (addrs : list Z) (tags : list (Z * Z)) (etype : Z) (payload : list Z) : list Z :=
  addrs ++ flat_map (fun t => [129; 0; fst t; snd t]) tags ++ [etype / 256; etype mod 256] ++ payload.

(** * Lemmas: the table *)

Definition count_use (m : list fid_entry) : nat := length (filter f_use m).

Lemma map_find_add_other : forall m id h id', id' <> id -> map_find (map_add m id h) id' = map_find m id'.
Proof.
  induction m as [|e m IH]; intros id h id' N; [reflexivity|]. cbn [map_add].
  destruct (f_use e) eqn:U; cbn [map_find].
  - rewrite U. cbn [negb orb]. rewrite IH by auto. reflexivity.
  - rewrite U. cbn [f_use f_id negb orb]. destruct (Z.eqb_spec id id'); [congruence|]. reflexivity.
Qed.

Lemma map_find_add_same : forall m id h, map_find m id = None -> (count_use m < length m)%nat ->
  map_find (map_add m id h) id = Some h.
Proof.
  induction m as [|e m IH]; intros id h F L; [cbn in L; lia|].
  cbn [map_add]. unfold count_use in *. cbn [filter] in L. cbn [map_find] in F.
  destruct (f_use e) eqn:U; cbn [map_find].
  - rewrite U in *. cbn [negb orb] in *. destruct (negb (f_id e =? id)); [|discriminate F].
    apply IH; auto. cbn [length] in L. lia.
  - cbn [f_use f_id negb orb]. rewrite Z.eqb_refl. reflexivity.
Qed.

Lemma map_find_remove_other : forall m id id', id' <> id -> map_find (map_remove m id) id' = map_find m id'.
Proof.
  induction m as [|e m IH]; intros id id' N; [reflexivity|]. cbn [map_remove].
  destruct (negb (f_use e) || negb (f_id e =? id)) eqn:Q; cbn [map_find].
  - rewrite IH by auto. reflexivity.
  - cbn [f_use negb orb]. apply orb_false_iff in Q. destruct Q as (_ & Q).
    apply negb_false_iff, Z.eqb_eq in Q. rewrite Q.
    destruct (Z.eqb_spec id id'); [congruence|]. rewrite orb_true_r. reflexivity.
Qed.

Lemma map_remove_none : forall m id, map_find m id = None -> map_remove m id = m.
Proof.
  induction m as [|e m IH]; intros id F; [reflexivity|]. cbn [map_remove map_find] in *.
  destruct (negb (f_use e) || negb (f_id e =? id)); [|discriminate F]. rewrite IH; auto.
Qed.

(** At most one entry in use per frame id. *)
Definition uniq (m : list fid_entry) : Prop := NoDup (map f_id (filter f_use m)).

Lemma map_find_in : forall m id h, map_find m id = Some h -> exists e, In e (filter f_use m) /\ f_id e = id /\ f_handler e = h.
Proof.
  induction m as [|e m IH]; intros id h F; [discriminate|]. cbn [map_find filter] in *.
  destruct (negb (f_use e) || negb (f_id e =? id)) eqn:Q.
  - destruct (IH _ _ F) as (e' & A & B). exists e'. split; [|exact B].
    destruct (f_use e); [right|]; auto.
  - apply orb_false_iff in Q. destruct Q as (Q1 & Q2). apply negb_false_iff in Q1, Q2.
    apply Z.eqb_eq in Q2. rewrite Q1. exists e. split; [left; auto|]. split; congruence.
Qed.

Lemma map_find_none : forall m id, map_find m id = None -> ~ In id (map f_id (filter f_use m)).
Proof.
  induction m as [|e m IH]; intros id F; [auto|]. cbn [map_find filter] in *.
  destruct (f_use e) eqn:U.
  - cbn [negb orb] in F. destruct (Z.eqb_spec (f_id e) id); [discriminate F|].
    cbn [map]. intros [A|A]; [congruence|]. apply (IH _ F A).
  - cbn [negb orb] in F. apply IH; auto.
Qed.

Lemma map_find_remove_same : forall m id, uniq m -> map_find (map_remove m id) id = None.
Proof.
  induction m as [|e m IH]; intros id U; [reflexivity|]. cbn [map_remove].
  unfold uniq in U. cbn [filter] in U.
  destruct (negb (f_use e) || negb (f_id e =? id)) eqn:Q; cbn [map_find].
  - rewrite Q. apply IH. destruct (f_use e); [inversion U; auto|exact U].
  - cbn [f_use negb orb]. apply orb_false_iff in Q. destruct Q as (Q1 & Q2). apply negb_false_iff in Q1, Q2.
    apply Z.eqb_eq in Q2. rewrite Q1 in U. cbn [map] in U. inversion U as [|x l N1 N2]; subst.
    destruct (map_find m (f_id e)) eqn:F; [|reflexivity].
    exfalso. apply N1. apply map_find_in in F. destruct F as (e' & A & B & _).
    rewrite <- B. apply in_map, A.
Qed.

Lemma uniq_add : forall m id h, uniq m -> map_find m id = None -> uniq (map_add m id h).
Proof.
  unfold uniq. induction m as [|e m IH]; intros id h U F; [constructor|].
  cbn [map_add filter map_find] in *. destruct (f_use e) eqn:Ue; cbn [filter f_use].
  - rewrite Ue. cbn [negb orb] in F. destruct (Z.eqb_spec (f_id e) id) as [|NE]; [discriminate F|].
    cbn [map] in *. inversion U as [|x l N1 N2]; subst. constructor; [|apply IH; auto].
    intros A. apply in_map_iff in A. destruct A as (e' & A1 & A2).
    apply N1. clear -A1 A2 NE.
    assert (G : forall m, In e' (filter f_use (map_add m id h)) -> f_id e' = id \/ In e' (filter f_use m)).
    { clear. induction m as [|x m IH]; [auto|]. cbn [map_add]. destruct (f_use x) eqn:Ux; cbn [filter f_use]; rewrite ?Ux.
      - intros [A|A]; [right; left; auto|]. destruct (IH A); [auto|right; right; auto].
      - intros [A|A]; [left; subst; reflexivity|right; auto]. }
    destruct (G m A2) as [A|A]; [congruence|]. rewrite <- A1. apply in_map, A.
  - cbn [map f_id]. constructor; [|exact U]. cbn [negb orb] in F. apply map_find_none, F.
Qed.

Lemma uniq_remove : forall m id, uniq m -> uniq (map_remove m id).
Proof.
  unfold uniq. induction m as [|e m IH]; intros id U; [constructor|].
  cbn [map_remove filter] in *.
  destruct (negb (f_use e) || negb (f_id e =? id)); cbn [filter f_use].
  - destruct (f_use e); [|apply IH; auto]. cbn [map] in *. inversion U as [|x l N1 N2]; subst.
    constructor; [|apply IH; auto]. intros A. apply N1.
    apply in_map_iff in A. destruct A as (e' & A1 & A2). rewrite <- A1.
    clear -A2. assert (G : In e' (filter f_use m)); [|apply in_map, G].
    induction m as [|x m IH]; [exact A2|]. cbn [map_remove] in A2.
    destruct (negb (f_use x) || negb (f_id x =? id)); cbn [filter f_use] in A2.
    + cbn [filter]. destruct (f_use x); [destruct A2 as [A|A]; [left; auto|right; auto]|auto].
    + cbn [filter]. destruct (f_use x); [right|]; auto.
  - destruct (f_use e); [inversion U; auto|exact U].
Qed.

Lemma count_add : forall m id h, (count_use m < length m)%nat -> count_use (map_add m id h) = S (count_use m).
Proof.
  unfold count_use. induction m as [|e m IH]; intros id h L; [cbn in L; lia|].
  cbn [map_add filter] in *. destruct (f_use e) eqn:U; cbn [filter f_use]; rewrite ?U; cbn [length] in *; [|reflexivity].
  rewrite IH by lia. reflexivity.
Qed.

Lemma count_remove : forall m id h, map_find m id = Some h -> S (count_use (map_remove m id)) = count_use m.
Proof.
  unfold count_use. induction m as [|e m IH]; intros id h F; [discriminate F|].
  cbn [map_remove map_find filter] in *.
  destruct (negb (f_use e) || negb (f_id e =? id)) eqn:Q; cbn [filter f_use].
  - destruct (f_use e); cbn [length]; rewrite (IH id h F); reflexivity.
  - apply orb_false_iff in Q. destruct Q as (Q1 & _). apply negb_false_iff in Q1. rewrite Q1. reflexivity.
Qed.

Lemma map_add_length : forall m id h, length (map_add m id h) = length m.
Proof.
  induction m as [|e m IH]; intros id h; [reflexivity|]. cbn [map_add].
  destruct (f_use e); cbn [length]; [rewrite IH|]; reflexivity.
Qed.
Lemma map_remove_length : forall m id, length (map_remove m id) = length m.
Proof.
  induction m as [|e m IH]; intros id; [reflexivity|]. cbn [map_remove].
  destruct (negb (f_use e) || negb (f_id e =? id)); cbn [length]; [rewrite IH|]; reflexivity.
Qed.

Lemma registered_snoc : forall ops o id, registered (ops ++ [o]) id = reg_step id (registered ops id) o.
Proof. intros. unfold registered. rewrite fold_left_app. reflexivity. Qed.

Lemma map_init_find : forall cap id, map_find (map_init cap) id = None.
Proof. unfold map_init. induction cap as [|n IH]; intros id; [reflexivity|]. cbn. apply IH. Qed.

Lemma orderly_inv : forall cap ops, orderly cap ops ->
  let m := fold_left estep ops (map_init cap) in
  uniq m /\ length m = cap /\ count_use m = in_force (rev ops) /\
  forall id, map_find m id = registered ops id.
Proof.
  intros cap ops H. induction H as [|ops id h H IH R L|ops id H IH]; cbn zeta in *.
  - cbn [fold_left rev in_force]. split; [|split; [|split]].
    + unfold uniq, map_init. replace (filter f_use _) with (@nil fid_entry); [constructor|].
      symmetry. clear. induction cap; auto.
    + apply repeat_length.
    + unfold count_use, map_init. clear. induction cap; auto.
    + intros id. apply map_init_find.
  - destruct IH as (U & Ln & Ct & Fd). rewrite fold_left_app. cbn [fold_left estep].
    set (m := fold_left estep ops (map_init cap)) in *. clearbody m.
    rewrite rev_app_distr. cbn [rev app in_force].
    split; [apply uniq_add; [exact U|rewrite Fd; exact R]|].
    split; [rewrite map_add_length; exact Ln|].
    split; [rewrite count_add by lia; lia|].
    intros i. rewrite registered_snoc. cbn [reg_step].
    destruct (Z.eqb_spec id i) as [->|NE].
    + apply map_find_add_same; [rewrite Fd; exact R|lia].
    + rewrite map_find_add_other by auto. apply Fd.
  - destruct IH as (U & Ln & Ct & Fd). rewrite fold_left_app. cbn [fold_left estep].
    set (m := fold_left estep ops (map_init cap)) in *. clearbody m.
    rewrite rev_app_distr. cbn [rev app in_force]. rewrite rev_involutive.
    split; [apply uniq_remove; exact U|]. split; [rewrite map_remove_length; exact Ln|].
    split.
    + rewrite <- Fd. destruct (map_find m id) eqn:F.
      * pose proof (count_remove m id z F). lia.
      * rewrite map_remove_none by exact F. exact Ct.
    + intros i. rewrite registered_snoc. cbn [reg_step].
      destruct (Z.eqb_spec id i) as [->|NE].
      * apply map_find_remove_same. exact U.
      * rewrite map_find_remove_other by auto. apply Fd.
Qed.

(** * Lemmas: parsing *)

Lemma get16_app : forall pre a b rest, get16 (pre ++ a :: b :: rest) (Z.of_nat (length pre)) = Ok (a * 256 + b).
Proof.
  intros pre a b rest. unfold get16.
  pose proof (byte_at_app pre (a :: b :: rest) 0 ltac:(cbn; lia)) as H0. cbn [nth] in H0. rewrite Z.add_0_r in H0.
  pose proof (byte_at_app pre (a :: b :: rest) 1 ltac:(cbn; lia)) as H1. cbn [nth] in H1. change (Z.of_nat 1) with 1 in H1.
  rewrite H0. cbn [obind]. rewrite H1. reflexivity.
Qed.

Lemma skip_tags_spec : forall tags pre etype payload fuel, 0 <= etype < 65536 -> etype <> 33024 ->
  Z.of_nat (length pre + 4 * length tags) < 65000 ->
  (length tags < fuel)%nat ->
  skip_tags fuel (pre ++ flat_map (fun t => [129; 0; fst t; snd t]) tags ++ [etype / 256; etype mod 256] ++ payload)
    (Z.of_nat (length pre)) = Ok (etype, Z.of_nat (length pre + 4 * length tags)).
Proof.
  induction tags as [|[x y] tags IH]; intros pre etype payload [|fuel] E N L F; try lia.
  - cbn [flat_map app skip_tags]. rewrite get16_app. cbn [obind].
    replace (etype / 256 * 256 + etype mod 256) with etype by (pose proof (Z.div_mod etype 256 ltac:(lia)); lia).
    destruct (Z.eqb_spec etype 33024); [contradiction|]. do 2 f_equal. cbn [length]. lia.
  - cbn [flat_map fst snd app skip_tags]. rewrite get16_app. cbn [obind].
    change (129 * 256 + 0 =? 33024) with true. cbv iota.
    cbn [length] in *. rewrite u16_id by lia.
    replace (Z.of_nat (length pre) + 4) with (Z.of_nat (length (pre ++ [129; 0; x; y]))) by (rewrite app_length; cbn [length]; lia).
    replace (pre ++ 129 :: 0 :: x :: y :: flat_map (fun t => [129; 0; fst t; snd t]) tags ++ etype / 256 :: etype mod 256 :: payload)
      with ((pre ++ [129; 0; x; y]) ++ flat_map (fun t => [129; 0; fst t; snd t]) tags ++ [etype / 256; etype mod 256] ++ payload)
      by (rewrite <- app_assoc; reflexivity).
    rewrite IH by (try assumption; rewrite ?app_length; cbn [length]; lia).
    rewrite app_length. cbn [length]. do 3 f_equal. lia.
Qed.

Lemma tags_length : forall tags : list (Z * Z), length (flat_map (fun t => [129; 0; fst t; snd t]) tags) = (4 * length tags)%nat.
Proof. induction tags as [|t tags IH]; [reflexivity|]. cbn [flat_map length app]. rewrite IH. lia. Qed.

(** ** C20 *)

(** With orderly registration, a Profinet frame is given to the handler last
    registered for its frame id, with the position of its frame id, and is left
    alone if there is none. *)
Theorem C20_dispatch : forall cap ops addrs tags hi lo rest, orderly cap ops ->
  length addrs = 12%nat -> Z.of_nat (length tags) < 10000 -> 
  eth_recv (fold_left estep ops (map_init cap)) (eth_frame addrs tags 34962 (hi :: lo :: rest)) =
  Ok (match registered ops (hi * 256 + lo) with
      | Some h => RHandler h (hi * 256 + lo) (14 + 4 * Z.of_nat (length tags))
      | None => RNone
      end).
Proof.
  intros cap ops addrs tags hi lo rest H La Lt.
  destruct (orderly_inv cap ops H) as (_ & _ & _ & Fd).
  unfold eth_recv, eth_frame.
  set (l := addrs ++ _). change 12 with (Z.of_nat 12). rewrite <- La. unfold l.
  rewrite skip_tags_spec by (rewrite ?app_length, ?tags_length; cbn [length]; lia).
  cbn [obind]. rewrite La. rewrite (u16_id (Z.of_nat (12 + 4 * length tags) + 2)) by lia.
  change (34962 =? 34962) with true. cbv iota.
  replace (addrs ++ flat_map (fun t => [129; 0; fst t; snd t]) tags ++ [34962 / 256; 34962 mod 256] ++ hi :: lo :: rest)
    with ((addrs ++ flat_map (fun t => [129; 0; fst t; snd t]) tags ++ [34962 / 256; 34962 mod 256]) ++ hi :: lo :: rest)
    by (rewrite <- !app_assoc; reflexivity).
  replace (Z.of_nat (12 + 4 * length tags) + 2) with
    (Z.of_nat (length (addrs ++ flat_map (fun t => [129; 0; fst t; snd t]) tags ++ [34962 / 256; 34962 mod 256])))
    by (rewrite !app_length, tags_length; cbn [length]; lia).
  rewrite get16_app. cbn [obind]. rewrite Fd.
  destruct (registered ops (hi * 256 + lo)); [|reflexivity].
  do 2 f_equal. rewrite !app_length, tags_length. cbn [length]. lia.
Qed.
Print Assumptions C20_dispatch.

(** Frames of other types never reach a frame handler. *)
Theorem C20_other_types : forall m addrs tags etype payload,
  length addrs = 12%nat -> Z.of_nat (length tags) < 10000 -> 0 <= etype < 65536 ->
  etype <> 33024 -> etype <> 34962 ->
  eth_recv m (eth_frame addrs tags etype payload) =
  Ok (if etype =? 35020 then RLldp (14 + 4 * Z.of_nat (length tags)) else RNone).
Proof.
  intros m addrs tags etype payload La Lt E N1 N2. unfold eth_recv, eth_frame.
  set (l := addrs ++ _). change 12 with (Z.of_nat 12). rewrite <- La. unfold l.
  rewrite skip_tags_spec by (rewrite ?app_length, ?tags_length; cbn [length]; lia).
  cbn [obind]. rewrite La. rewrite u16_id by lia.
  destruct (Z.eqb_spec etype 34962); [contradiction|].
  destruct (etype =? 35020); [|reflexivity]. do 2 f_equal. lia.
Qed.
Print Assumptions C20_other_types.

(** Whatever the registration history, a handler is only ever called for a frame
    id for which it was registered. *)
Theorem C20_only_registered_handlers : forall cap ops id h,
  map_find (fold_left estep ops (map_init cap)) id = Some h -> In (EAdd id h) ops.
Proof.
  intros cap ops. 
  assert (G : forall e, In e (filter f_use (fold_left estep ops (map_init cap))) -> In (EAdd (f_id e) (f_handler e)) ops).
  { induction ops as [|o ops IH] using rev_ind; intros e H.
    - cbn [fold_left] in H. exfalso. clear -H. unfold map_init in H. induction cap; cbn in H; auto.
    - rewrite fold_left_app in H. cbn [fold_left] in H. set (m := fold_left estep ops (map_init cap)) in *. clearbody m.
      apply in_or_app. destruct o as [id h|id]; cbn [estep] in H.
      + assert (D : e = mkFid true id h \/ In e (filter f_use m)).
        { clear -H. induction m as [|x m IH]; [destruct H|]. cbn [map_add] in H. cbn [filter].
          destruct (f_use x) eqn:U; cbn [filter f_use] in H; rewrite ?U in H.
          - destruct H as [H|H]; [right; left; auto|]. destruct (IH H); [auto|right; right; auto].
          - destruct H as [H|H]; [left; auto|right; auto]. }
        destruct D as [->|D]; [right; left; reflexivity|left; auto].
      + left. apply IH. clear -H. induction m as [|x m IH]; [exact H|]. cbn [map_remove] in H.
        cbn [filter]. destruct (negb (f_use x) || negb (f_id x =? id)); cbn [filter f_use] in H.
        * destruct (f_use x); [destruct H as [H|H]; [left; auto|right; auto]|auto].
        * destruct (f_use x); [right|]; auto. }
  intros id h F. apply map_find_in in F. destruct F as (e & A & B & D). subst. auto.
Qed.
Print Assumptions C20_only_registered_handlers.

(** If a frame id is registered twice, frames go to the older registration. *)
Theorem C20_duplicate_refuted : forall cap id h1 h2, (2 <= cap)%nat ->
  registered [EAdd id h1; EAdd id h2] id = Some h2 /\
  map_find (fold_left estep [EAdd id h1; EAdd id h2] (map_init cap)) id = Some h1.
Proof.
  intros [|[|cap]] id h1 h2 L; try lia. split.
  - unfold registered. cbn. rewrite Z.eqb_refl. reflexivity.
  - cbn. rewrite Z.eqb_refl. reflexivity.
Qed.
Print Assumptions C20_duplicate_refuted.

(** If the table is full a registration is dropped without notice. *)
Theorem C20_full_table_refuted : forall cap ops id h,
  (count_use (fold_left estep ops (map_init cap)) = cap)%nat ->
  fold_left estep (ops ++ [EAdd id h]) (map_init cap) = fold_left estep ops (map_init cap).
Proof.
  intros cap ops id h F. rewrite fold_left_app. cbn [fold_left estep].
  assert (L : length (fold_left estep ops (map_init cap)) = cap).
  { clear F. induction ops as [|o ops IH] using rev_ind; [apply repeat_length|].
    rewrite fold_left_app. cbn [fold_left]. destruct o; cbn [estep]; rewrite ?map_add_length, ?map_remove_length; exact IH. }
  set (m := fold_left estep ops (map_init cap)) in *. clearbody m. rewrite <- L in F. clear -F.
  unfold count_use in F. induction m as [|e m IH]; [reflexivity|]. cbn [filter length map_add] in *.
  assert (B : (length (filter f_use m) <= length m)%nat)
    by (clear; induction m as [|x m IH]; cbn [filter length]; [lia|destruct (f_use x); cbn [length]; lia]).
  destruct (f_use e); cbn [length] in F; [rewrite IH by lia; reflexivity|lia].
Qed.
Print Assumptions C20_full_table_refuted.

(** ** C21 *)

(** Parsing is defined for every frame whose tags are followed by an ethertype
    and, for Profinet, by a frame id, inside the frame. *)
Theorem C21_complete_header_partial : forall m addrs tags etype payload,
  length addrs = 12%nat -> Z.of_nat (length tags) < 10000 -> 0 <= etype < 65536 -> etype <> 33024 ->
  (etype = 34962 -> (2 <= length payload)%nat) ->
  exists r, eth_recv m (eth_frame addrs tags etype payload) = Ok r.
Proof.
  intros m addrs tags etype payload La Lt E N1 P.
  destruct (Z.eq_dec etype 34962) as [->|N2].
  - specialize (P eq_refl). destruct payload as [|hi [|lo rest]]; [cbn in P; lia|cbn in P; lia|].
    unfold eth_recv, eth_frame.
    set (l := addrs ++ _). change 12 with (Z.of_nat 12). rewrite <- La. unfold l.
    rewrite skip_tags_spec by (rewrite ?app_length, ?tags_length; cbn [length]; lia).
    cbn [obind]. rewrite La. rewrite (u16_id (Z.of_nat (12 + 4 * length tags) + 2)) by lia.
    change (34962 =? 34962) with true. cbv iota.
    replace (addrs ++ flat_map (fun t => [129; 0; fst t; snd t]) tags ++ [34962 / 256; 34962 mod 256] ++ hi :: lo :: rest)
      with ((addrs ++ flat_map (fun t => [129; 0; fst t; snd t]) tags ++ [34962 / 256; 34962 mod 256]) ++ hi :: lo :: rest)
      by (rewrite <- !app_assoc; reflexivity).
    replace (Z.of_nat (12 + 4 * length tags) + 2) with
      (Z.of_nat (length (addrs ++ flat_map (fun t => [129; 0; fst t; snd t]) tags ++ [34962 / 256; 34962 mod 256])))
      by (rewrite !app_length, tags_length; cbn [length]; lia).
    rewrite get16_app. cbn [obind]. destruct (map_find m _); eexists; reflexivity.
  - eexists. apply C20_other_types; auto.
Qed.
Print Assumptions C21_complete_header_partial.

(** Truncated frames are read beyond their end: a frame that ends with a VLAN tag,
    one shorter than 14 bytes, and a Profinet frame without frame id. *)
Theorem C21_truncated_refuted : forall m addrs t, length addrs = 12%nat ->
  eth_recv m addrs = Ub /\
  eth_recv m (addrs ++ [129; 0; fst t; snd t]) = Ub /\
  eth_recv m (addrs ++ [136; 146]) = Ub.
Proof.
  intros m addrs t La.
  do 12 (destruct addrs as [|? addrs]; [discriminate La|]). destruct addrs; [|discriminate La].
  split; [|split]; unfold eth_recv, skip_tags, get16, byte_at; cbn; reflexivity.
Qed.
Print Assumptions C21_truncated_refuted.

(** Non-vacuity. *)
Example ex_orderly : orderly 2 [EAdd 32768 1; EAdd 33024 2; ERemove 32768; EAdd 32768 3].
Proof.
  apply (or_add 2 [EAdd 32768 1; EAdd 33024 2; ERemove 32768]).
  - apply (or_rem 2 [EAdd 32768 1; EAdd 33024 2]). apply (or_add 2 [EAdd 32768 1]).
    + apply (or_add 2 []); [constructor|reflexivity|cbn; lia].
    + reflexivity.
    + cbn; lia.
  - reflexivity.
  - cbn; lia.
Qed.
