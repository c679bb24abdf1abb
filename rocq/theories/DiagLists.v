(** Linked lists in the pool of diagnosis items. *)

From Coq Require Import List Arith Bool ZArith Lia.
From Verif Require Import Base DiagModel.
Import ListNotations.
Set Implicit Arguments.
Open Scope nat_scope.

Inductive chain (its : nat -> ditem) : option nat -> list nat -> Prop :=
| chain_nil : chain its None []
| chain_cons : forall i l, chain its (d_next (its i)) l -> chain its (Some i) (i :: l).

(** Equal up to the link. *)
Definition alike (a b : ditem) : Prop := with_next None a = with_next None b.
Lemma alike_refl : forall a, alike a a.
Proof. reflexivity. Qed.
Lemma alike_next : forall a o, alike (with_next o a) a.
Proof. reflexivity. Qed.
Lemma alike_trans : forall a b c, alike a b -> alike b c -> alike a c.
Proof. unfold alike. congruence. Qed.
Lemma alike_fields : forall a b, alike a b ->
  d_use a = d_use b /\ d_usi a = d_usi b /\ d_std a = d_std b /\ d_data a = d_data b.
Proof. intros [u n s d x] [u' n' s' d' x'] H. cbv in H. injection H. auto. Qed.

Lemma chain_frame : forall its its' o l, chain its o l ->
  (forall i, In i l -> d_next (its' i) = d_next (its i)) -> chain its' o l.
Proof.
  induction 1 as [|i l H IH]; intros F; constructor.
  rewrite F by (cbn; auto). apply IH. intros j Hj. apply F. cbn; auto.
Qed.

Lemma chain_upd : forall its o l i x, chain its o l -> ~ In i l -> chain (upd its i x) o l.
Proof.
  intros its o l i x H N. eapply chain_frame; eauto. intros j Hj. rewrite upd_other; auto.
  intros ->. auto.
Qed.

Lemma chain_fun : forall its o l, chain its o l -> forall l', chain its o l' -> l = l'.
Proof.
  induction 1 as [|i l H IH]; intros l' H'; inversion H'; subst; auto. f_equal; auto.
Qed.

Lemma chain_none : forall its l, chain its None l -> l = [].
Proof. intros its l H. now inversion H. Qed.
Lemma chain_some : forall its i l, chain its (Some i) l ->
  exists r, l = i :: r /\ chain its (d_next (its i)) r.
Proof. intros its i l H. inversion H; subst. eauto. Qed.

Lemma walk_chain : forall its o l, chain its o l -> forall fuel, length l <= fuel ->
  walk fuel its o = Some l.
Proof.
  induction 1 as [|i l H IH]; intros fuel F; [destruct fuel; reflexivity|].
  cbn in F. destruct fuel as [|fuel]; [lia|]. cbn. rewrite IH by lia. reflexivity.
Qed.

Lemma walk_items_chain : forall max its o l, chain its o l -> length l <= S max ->
  walk_items max its o = Some (map its l).
Proof. intros max its o l H L. unfold walk_items. now rewrite (walk_chain H). Qed.

Lemma chain_head : forall its i o l, chain its o (i :: l) ->
  o = Some i /\ chain its (d_next (its i)) l.
Proof. intros its i o l H. now inversion H. Qed.

(** Replacing the link of the last node of the first part. *)
Lemma chain_cut : forall its p i i' r head,
  chain its head ((p ++ [i']) ++ i :: r) -> NoDup ((p ++ [i']) ++ i :: r) ->
  chain (upd its i' (with_next (d_next (its i)) (its i'))) head ((p ++ [i']) ++ r).
Proof.
  intros its p. induction p as [|a p IH]; intros i i' r head H N; cbn in *.
  - apply chain_head in H. destruct H as [-> H]. apply chain_head in H. destruct H as [_ H].
    constructor. rewrite upd_same. cbn [with_next d_next].
    apply chain_upd; auto. intros Hi. apply NoDup_cons_iff in N. destruct N as [N _].
    apply N. cbn. auto.
  - apply chain_head in H. destruct H as [-> H]. apply NoDup_cons_iff in N. destruct N as [Na N].
    constructor. rewrite upd_other.
    + eapply IH; eauto.
    + intros ->. apply Na. rewrite in_app_iff, in_app_iff. cbn. auto.
Qed.

Lemma find_loop_spec : forall m its head r p fuel ix prev,
  chain its head (p ++ r) -> NoDup (p ++ r) -> chain its ix r ->
  prev = last (map Some p) None -> (p = [] -> head = ix) ->
  length r <= fuel ->
  (Forall (fun i => m (its i) = false) r /\
   find_loop fuel m its head prev ix = Some (its, head, None)) \/
  exists r1 i r2 its' head', r = r1 ++ i :: r2 /\
    Forall (fun j => m (its j) = false) r1 /\ m (its i) = true /\
    find_loop fuel m its head prev ix = Some (its', head', Some i) /\
    chain its' head' (p ++ r1 ++ r2) /\
    (forall j, ~ In j (p ++ r1) -> its' j = its j) /\
    (forall j, alike (its' j) (its j)).
Proof.
  intros m its head r. induction r as [|i r IH]; intros p fuel ix prev C N X P Hp L.
  - inversion X; subst. left. split; auto. destruct fuel; reflexivity.
  - apply chain_head in X. destruct X as [-> X]. subst prev. cbn in L. destruct fuel as [|fuel]; [lia|]. cbn [find_loop].
    destruct (m (its i)) eqn:M.
    + right. destruct p as [|a q0] eqn:Ep.
      * exists [], i, r, its, (d_next (its i)). cbn [app last map]. repeat split; auto.
      * assert (E : exists q i', a :: q0 = q ++ [i']).
        { destruct (@exists_last _ (a :: q0)) as (q & i' & E); [discriminate|]. eauto. }
        destruct E as (q & i' & E). rewrite E in *. clear E.
        rewrite map_app. cbn [map]. rewrite last_last.
        exists [], i, r, (upd its i' (with_next (d_next (its i)) (its i'))), head.
        rewrite app_nil_r. cbn [app]. repeat split; auto.
        -- apply chain_cut; auto.
        -- intros j Hj. apply upd_other. intros ->. apply Hj. rewrite in_app_iff. cbn. auto.
        -- intros j. unfold upd. destruct (Nat.eqb_spec j i'); [subst; reflexivity|reflexivity].
    + destruct (IH (p ++ [i]) fuel (d_next (its i)) (Some i)) as [[F E]|H].
      * now rewrite <- app_assoc.
      * now rewrite <- app_assoc.
      * exact X.
      * rewrite map_app. cbn. now rewrite last_last.
      * intros Q. destruct p; discriminate.
      * lia.
      * left. split; [constructor; auto|exact E].
      * right. destruct H as (r1 & z & r2 & its' & head' & E & F & Mz & Q & C' & S1 & S2).
        exists (i :: r1), z, r2, its', head'. subst r. cbn [app].
        split; [reflexivity|]. split; [constructor; auto|]. split; [exact Mz|]. split; [exact Q|].
        split; [|split; [|exact S2]].
        -- rewrite <- app_assoc in C'. exact C'.
        -- intros j Hj. apply S1. rewrite <- app_assoc. exact Hj.
Qed.
