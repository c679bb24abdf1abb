(** Lemmas about CmModel.v: what one event does to each component. *)

From Coq Require Import List Arith Bool ZArith Lia.
From Verif Require Import Base CmModel CmSpec.
Import ListNotations.
Set Implicit Arguments.
Open Scope nat_scope.

(** Pure versions of the state machines (for AR [a], next identifier [id]). *)
Definition p_su (e : event) (a : ar) : ar :=
  match a_su a, e with
  | SuStartup, EvAbort | SuRun, EvAbort => with_su SuIdle a
  | _, _ => a
  end.
Definition p_io (e : event) (id : nat) (a : ar) : ar :=
  match a_io a, e with
  | IoIdle, EvAbort => with_io IoStartup false a
  | IoIdle, EvStartup => with_io IoStartup false (with_crs (clear_start (a_crs a)) a)
  | IoStartup, EvAbort => with_io IoIdle false a
  | IoStartup, EvStartup =>
      with_io IoWdata (a_resched a) (with_crs (clear_start (a_crs a)) a)
  | IoStartup, EvPrmend => with_io IoWdata true (with_hio (Some id) a)
  | IoWdata, EvAbort => with_io IoIdle false a
  | IoWdata, EvData => with_io IoData false (with_hio None a)
  | IoData, EvAbort => with_io IoIdle false a
  | _, _ => a
  end.
Definition p_wrr (e : event) (a : ar) : ar :=
  match a_wrr a, e with
  | _, EvAbort => with_wrr WrIdle a
  | WrIdle, EvStartup => with_wrr WrStartup a
  | WrStartup, EvPrmend => with_wrr WrPrmend a
  | WrPrmend, EvApplrdy => with_wrr WrData a
  | _, _ => a
  end.
Definition p_sm (e : event) (id : nat) (a : ar) : ar :=
  match a_sm a, e with
  | SmIdle, EvStartup => with_sm SmRun (Some id) a
  | SmRun, EvData | SmRun, EvAbort => with_sm SmIdle None a
  | _, _ => a
  end.
Definition p_pbe (e : event) (a : ar) : ar :=
  match a_pbe a, e with
  | PbIdle, EvData => with_pbe PbWfind (a_stored a) a
  | PbIdle, _ => a
  | _, EvAbort => with_pbe PbIdle (a_stored a) a
  | _, _ => a
  end.

Definition tr_su (i : nat) (e : event) (a : ar) : list obs :=
  match a_su a, e with
  | SuStartup, EvAbort | SuRun, EvAbort => OAlarmClose i :: cr_obs (su_close i) 0 (a_crs a)
  | SuStartup, EvPrmend => cr_obs (su_run i) 0 (a_crs a)
  | _, _ => []
  end.

(** Two networks agree but for AR [i], the timers, the next identifier and the
    trace. *)
Record delta (i : nat) (n n' : net) (a' : ar) (tm : list timer) (nx : nat)
    (os : list obs) : Prop := {
  d_other : forall k, k <> i -> n_ars n' k = n_ars n k;
  d_self : n_ars n' i = a';
  d_order : n_order n' = n_order n;
  d_subs : n_subs n' = n_subs n;
  d_tm : n_timers n' = tm;
  d_nx : n_next n' = nx;
  d_tr : n_tr n' = os ++ n_tr n
}.

Ltac dlt := constructor; cbn; intros; rewrite ?upd_same; rewrite ?upd_other by auto;
  auto; try reflexivity.

Lemma cmsu_delta : forall i e n,
  delta i n (cmsu_ind i e n) (p_su e (n_ars n i)) (n_timers n) (n_next n)
        (tr_su i e (n_ars n i)).
Proof.
  intros i e n. unfold cmsu_ind, p_su, tr_su.
  destruct (a_su (n_ars n i)) eqn:E, e; dlt.
Qed.

Definition tm_io (e : event) (i id : nat) (a : ar) (tm : list timer) :=
  match a_io a, e with
  | IoStartup, EvPrmend => mkTm id TIo i 100000 :: tm
  | IoWdata, EvData => del_timer (a_hio a) tm
  | _, _ => tm
  end.
Definition nx_io (e : event) (id : nat) (a : ar) :=
  match a_io a, e with IoStartup, EvPrmend => S id | _, _ => id end.
Lemma cmio_delta : forall i e n,
  delta i n (cmio_ind i e n) (p_io e (n_next n) (n_ars n i))
        (tm_io e i (n_next n) (n_ars n i) (n_timers n))
        (nx_io e (n_next n) (n_ars n i)) [].
Proof.
  intros i e n. unfold cmio_ind, p_io, tm_io, nx_io.
  destruct (a_io (n_ars n i)) eqn:E, e; dlt.
Qed.

Lemma cmwrr_delta : forall i e n,
  delta i n (cmwrr_ind i e n) (p_wrr e (n_ars n i)) (n_timers n) (n_next n) [].
Proof.
  intros i e n. unfold cmwrr_ind, p_wrr.
  destruct (a_wrr (n_ars n i)) eqn:E, e; dlt.
Qed.

Definition sm_timer (i id : nat) (a : ar) : timer :=
  mkTm id TSm i (u32 (a_factor a * 100 * 1000)).
Definition tm_sm (e : event) (i id : nat) (a : ar) (tm : list timer) :=
  match a_sm a, e with
  | SmIdle, EvStartup => sm_timer i id a :: del_timer (a_hsm a) tm
  | SmRun, EvData | SmRun, EvAbort => del_timer (a_hsm a) tm
  | _, _ => tm
  end.
Definition nx_sm (e : event) (id : nat) (a : ar) :=
  match a_sm a, e with SmIdle, EvStartup => S id | _, _ => id end.
Lemma cmsm_delta : forall i e n,
  delta i n (cmsm_ind i e n) (p_sm e (n_next n) (n_ars n i))
        (tm_sm e i (n_next n) (n_ars n i) (n_timers n))
        (nx_sm e (n_next n) (n_ars n i)) [].
Proof.
  intros i e n. unfold cmsm_ind, p_sm, tm_sm, nx_sm, sm_restart, sm_stop, sm_timer.
  destruct (a_sm (n_ars n i)) eqn:E, e; dlt.
Qed.

Lemma cmpbe_delta : forall i e n,
  delta i n (cmpbe_ind i e n) (p_pbe e (n_ars n i)) (n_timers n) (n_next n) [].
Proof.
  intros i e n. unfold cmpbe_ind, p_pbe.
  destruct (a_pbe (n_ars n i)) eqn:E, e; dlt.
Qed.

Lemma delta_trans : forall i n n1 n2 a1 tm1 nx1 os1 a2 tm2 nx2 os2,
  delta i n n1 a1 tm1 nx1 os1 -> delta i n1 n2 a2 tm2 nx2 os2 ->
  delta i n n2 a2 tm2 nx2 (os2 ++ os1).
Proof.
  intros * [A B C D E F G] [A' B' C' D' E' F' G'].
  constructor; try congruence.
  - intros k Hk. rewrite A', A; auto.
  - rewrite G', G. now rewrite app_assoc.
Qed.

(** The reaction of one AR to an event. *)
Definition p_all (e : event) (id : nat) (a : ar) : ar :=
  p_pbe e (p_sm e (nx_io e id (p_su e a)) (p_wrr e (p_io e id (p_su e a)))).
Definition nx_all (e : event) (id : nat) (a : ar) : nat :=
  nx_sm e (nx_io e id (p_su e a)) (p_wrr e (p_io e id (p_su e a))).
Definition tm_all (e : event) (i id : nat) (a : ar) (tm : list timer) :=
  tm_sm e i (nx_io e id (p_su e a)) (p_wrr e (p_io e id (p_su e a)))
        (tm_io e i id (p_su e a) tm).

Definition ind0 (i : nat) (e : event) (n : net) : net :=
  cmpbe_ind i e (cmsm_ind i e (cmwrr_ind i e (cmio_ind i e (cmsu_ind i e
    (emit (OEvent (a_arep (n_ars n i)) e) n))))).

Lemma ind0_delta : forall i e n,
  delta i n (ind0 i e n) (p_all e (n_next n) (n_ars n i))
        (tm_all e i (n_next n) (n_ars n i) (n_timers n))
        (nx_all e (n_next n) (n_ars n i))
        (tr_su i e (n_ars n i) ++ [OEvent (a_arep (n_ars n i)) e]).
Proof.
  intros i e n.
  set (n0 := emit (OEvent (a_arep (n_ars n i)) e) n).
  assert (D0 : delta i n n0 (n_ars n i) (n_timers n) (n_next n)
                     [OEvent (a_arep (n_ars n i)) e]) by (unfold n0; dlt).
  pose proof (cmsu_delta i e n0) as D1.
  pose proof (cmio_delta i e (cmsu_ind i e n0)) as D2.
  pose proof (cmwrr_delta i e (cmio_ind i e (cmsu_ind i e n0))) as D3.
  pose proof (cmsm_delta i e (cmwrr_ind i e (cmio_ind i e (cmsu_ind i e n0)))) as D4.
  pose proof (cmpbe_delta i e (cmsm_ind i e (cmwrr_ind i e (cmio_ind i e (cmsu_ind i e n0))))) as D5.
  pose proof (d_self D0) as S0; pose proof (d_tm D0) as T0; pose proof (d_nx D0) as X0.
  rewrite S0, T0, X0 in D1.
  pose proof (d_self D1) as S1; pose proof (d_tm D1) as T1; pose proof (d_nx D1) as X1.
  rewrite S1, T1, X1 in D2.
  pose proof (d_self D2) as S2; pose proof (d_tm D2) as T2; pose proof (d_nx D2) as X2.
  rewrite S2, T2, X2 in D3.
  pose proof (d_self D3) as S3; pose proof (d_tm D3) as T3; pose proof (d_nx D3) as X3.
  rewrite S3, T3, X3 in D4.
  pose proof (d_self D4) as S4; pose proof (d_tm D4) as T4; pose proof (d_nx D4) as X4.
  rewrite S4, T4, X4 in D5.
  pose proof (delta_trans D0 D1) as E1.
  pose proof (delta_trans E1 D2) as E2.
  pose proof (delta_trans E2 D3) as E3.
  pose proof (delta_trans E3 D4) as E4.
  pose proof (delta_trans E4 D5) as E5.
  exact E5.
Qed.

Lemma state_ind_eq : forall i e n,
  state_ind i e n =
  match e with EvAbort => device_clear i (ar_release i (ind0 i e n)) | _ => ind0 i e n end.
Proof.
  intros i e n. unfold state_ind, ind0.
  generalize (emit (OEvent (a_arep (n_ars n i)) e) n) as m. intros m.
  generalize (cmpbe_ind i e (cmsm_ind i e (cmwrr_ind i e (cmio_ind i e (cmsu_ind i e m))))).
  intros. destruct e; reflexivity.
Qed.

(** Fields that an event leaves alone. *)
Definition keep (a b : ar) : Prop :=
  a_use b = a_use a /\ a_arep b = a_arep a /\ a_uuid b = a_uuid a /\
  a_dev b = a_dev a /\ a_stored b = a_stored a /\ a_ready b = a_ready a /\
  a_legacy b = a_legacy a /\ a_backup b = a_backup a /\ a_exp b = a_exp a /\
  a_factor b = a_factor a.
Lemma keep_trans : forall a b c, keep a b -> keep b c -> keep a c.
Proof. unfold keep; intros; intuition congruence. Qed.
Lemma p_su_keep : forall e a, keep a (p_su e a).
Proof. intros e a; unfold p_su; destruct (a_su a), e; unfold keep; cbn; auto 12. Qed.
Lemma p_io_keep : forall e id a, keep a (p_io e id a).
Proof. intros e id a; unfold p_io; destruct (a_io a), e; unfold keep; cbn; auto 12. Qed.
Lemma p_wrr_keep : forall e a, keep a (p_wrr e a).
Proof. intros e a; unfold p_wrr; destruct (a_wrr a), e; unfold keep; cbn; auto 12. Qed.
Lemma p_sm_keep : forall e id a, keep a (p_sm e id a).
Proof. intros e id a; unfold p_sm; destruct (a_sm a), e; unfold keep; cbn; auto 12. Qed.
Lemma p_pbe_keep : forall e a, keep a (p_pbe e a).
Proof. intros e a; unfold p_pbe; destruct (a_pbe a), e; unfold keep; cbn; auto 12. Qed.
Lemma p_all_keep : forall e id a, keep a (p_all e id a).
Proof.
  intros e id a. unfold p_all.
  eapply keep_trans; [|apply p_pbe_keep].
  eapply keep_trans; [|apply p_sm_keep].
  eapply keep_trans; [|apply p_wrr_keep].
  eapply keep_trans; [|apply p_io_keep].
  apply p_su_keep.
Qed.
Lemma pre_sm_keep : forall e id a,
  a_sm (p_wrr e (p_io e id (p_su e a))) = a_sm a /\
  a_hsm (p_wrr e (p_io e id (p_su e a))) = a_hsm a.
Proof.
  intros e id a.
  assert (W : forall b, a_sm (p_wrr e b) = a_sm b /\ a_hsm (p_wrr e b) = a_hsm b)
    by (intros b; unfold p_wrr; destruct (a_wrr b), e; auto).
  assert (I : forall b, a_sm (p_io e id b) = a_sm b /\ a_hsm (p_io e id b) = a_hsm b)
    by (intros b; unfold p_io; destruct (a_io b), e; auto).
  assert (U : a_sm (p_su e a) = a_sm a /\ a_hsm (p_su e a) = a_hsm a)
    by (unfold p_su; destruct (a_su a), e; auto).
  destruct (W (p_io e id (p_su e a))), (I (p_su e a)), U. split; congruence.
Qed.

(** ** The fields of a connection after an event *)
Lemma p_all_fields : forall e id a, e <> EvAbort -> e <> EvStartup ->
  a_su (p_all e id a) = a_su a /\ a_crs (p_all e id a) = a_crs a /\
  a_wrr (p_all e id a) = a_wrr (p_wrr e a) /\ a_io (p_all e id a) = a_io (p_io e id a) /\
  a_pbe (p_all e id a) = a_pbe (p_pbe e a).
Proof.
  intros e id a N1 N2. unfold p_all.
  assert (E : p_su e a = a) by (unfold p_su; destruct (a_su a), e; congruence).
  rewrite E. clear E. set (k := nx_io e id a). clearbody k.
  assert (A1 : forall b, a_su (p_pbe e b) = a_su b /\ a_crs (p_pbe e b) = a_crs b /\
                         a_wrr (p_pbe e b) = a_wrr b /\ a_io (p_pbe e b) = a_io b)
    by (intros b; unfold p_pbe; destruct (a_pbe b), e; auto).
  assert (A2 : forall b, a_su (p_sm e k b) = a_su b /\ a_crs (p_sm e k b) = a_crs b /\
                         a_wrr (p_sm e k b) = a_wrr b /\ a_io (p_sm e k b) = a_io b /\
                         a_pbe (p_sm e k b) = a_pbe b)
    by (intros b; unfold p_sm; destruct (a_sm b), e; auto 6).
  assert (A3 : forall b, a_su (p_wrr e b) = a_su b /\ a_crs (p_wrr e b) = a_crs b /\
                         a_io (p_wrr e b) = a_io b /\ a_pbe (p_wrr e b) = a_pbe b)
    by (intros b; unfold p_wrr; destruct (a_wrr b), e; auto).
  assert (A4 : a_su (p_io e id a) = a_su a /\ a_crs (p_io e id a) = a_crs a /\
               a_wrr (p_io e id a) = a_wrr a /\ a_pbe (p_io e id a) = a_pbe a)
    by (unfold p_io; destruct (a_io a), e; try congruence; auto).
  assert (A5 : forall b c, a_wrr b = a_wrr c -> a_wrr (p_wrr e b) = a_wrr (p_wrr e c))
    by (intros b c H; unfold p_wrr; rewrite H; destruct (a_wrr c) eqn:Q, e; cbn; congruence).
  assert (A6 : forall b c, a_pbe b = a_pbe c -> a_pbe (p_pbe e b) = a_pbe (p_pbe e c))
    by (intros b c H; unfold p_pbe; rewrite H; destruct (a_pbe c) eqn:Q, e; cbn; congruence).
  set (b1 := p_io e id a) in *.
  destruct (A3 b1) as (B1 & B2 & B3 & B4). pose proof (A5 b1 a) as B5.
  set (b2 := p_wrr e b1) in *.
  destruct (A2 b2) as (C1 & C2 & C3 & C4 & C5). set (b3 := p_sm e k b2) in *.
  destruct (A1 b3) as (D1 & D2 & D3 & D4). pose proof (A6 b3 a) as D5.
  destruct A4 as (F1 & F2 & F3 & F4). rewrite D1, D2, D3, D4, C1, C2, C3, C4.
  refine (conj _ (conj _ (conj _ (conj _ _)))); try congruence; auto.
  apply D5. congruence.
Qed.

(** What an ABORT does to a connection in use. *)
Definition clear_subs (n : net) (i : nat) (order' : list nat) : list subslot * list obs :=
  clear_all (upd (n_ars n) i ar0) order' i (n_subs n).

Lemma expected_ext : forall f g order k,
  (forall j, f j = g j) -> first_expecting f order k = first_expecting g order k.
Proof.
  intros f g order k H; induction order as [|j r IH]; cbn; auto.
  rewrite H, IH. reflexivity.
Qed.
Lemma clear_all_ext : forall f g order i l,
  (forall j, f j = g j) -> clear_all f order i l = clear_all g order i l.
Proof.
  intros f g order i l H; induction l as [|s r IH]; cbn; auto.
  unfold clear_one. rewrite (expected_ext f g order (s_key s) H), IH. reflexivity.
Qed.

Lemma abort_spec : forall i n,
  a_use (n_ars n i) = true ->
  let a := n_ars n i in
  let n' := state_ind i EvAbort n in
  let order' := match a_arep a with O => n_order n | S j => remove_first j (n_order n) end in
  (forall k, n_ars n' k = upd (n_ars n) i ar0 k) /\
  n_order n' = order' /\
  n_subs n' = fst (clear_subs n i order') /\
  n_timers n' = match a_sm a with SmRun => del_timer (a_hsm a) (n_timers n) | SmIdle => n_timers n end /\
  n_next n' = n_next n /\
  n_tr n' = snd (clear_subs n i order') ++ tr_su i EvAbort a ++ OEvent (a_arep a) EvAbort :: n_tr n.
Proof.
  intros i n Hu a n' order'. subst n'. rewrite state_ind_eq.
  pose proof (ind0_delta i EvAbort n) as [A B C D E F G].
  set (n1 := ind0 i EvAbort n) in *.
  assert (Hp : a_use (n_ars n1 i) = true /\ a_arep (n_ars n1 i) = a_arep a).
  { rewrite B. fold a. destruct (p_all_keep EvAbort (n_next n) a) as (K1 & K2 & _).
    rewrite K1, K2. auto. }
  destruct Hp as [Hu1 Ha1].
  assert (HT : n_timers n1 = match a_sm a with SmRun => del_timer (a_hsm a) (n_timers n)
                             | SmIdle => n_timers n end /\ n_next n1 = n_next n).
  { rewrite E, F. fold a. unfold tm_all, nx_all, tm_sm, nx_sm.
    destruct (pre_sm_keep EvAbort (n_next n) a) as (K1 & K2). rewrite K1, K2.
    unfold tm_io, nx_io. destruct (a_io (p_su EvAbort a)), (a_sm a); auto. }
  destruct HT as [HT HX].
  assert (HR : forall k, n_ars (ar_release i n1) k = upd (n_ars n) i ar0 k).
  { intros k. unfold ar_release. rewrite Hu1. cbn.
    replace (n_ars match a_arep (n_ars n1 i) with
                   | 0 => n1 | S j => setorder (remove_first j (n_order n1)) n1 end)
      with (n_ars n1) by (destruct (a_arep (n_ars n1 i)); reflexivity).
    unfold upd. destruct (Nat.eqb_spec k i); auto. }
  assert (HO : n_order (ar_release i n1) = order').
  { unfold ar_release. rewrite Hu1, Ha1. unfold order'. rewrite <- C.
    destruct (a_arep a); reflexivity. }
  assert (HS : n_subs (ar_release i n1) = n_subs n /\
               n_timers (ar_release i n1) = n_timers n1 /\
               n_next (ar_release i n1) = n_next n1 /\ n_tr (ar_release i n1) = n_tr n1).
  { unfold ar_release. rewrite Hu1, Ha1, <- D. destruct (a_arep a); cbn; auto. }
  destruct HS as (HS1 & HS2 & HS3 & HS4).
  unfold device_clear.
  rewrite (clear_all_ext _ _ (n_order (ar_release i n1)) i (n_subs (ar_release i n1)) HR), HO, HS1.
  unfold clear_subs.
  destruct (clear_all (upd (n_ars n) i ar0) order' i (n_subs n)) as [l os] eqn:EC.
  cbn. refine (conj HR (conj HO (conj _ (conj _ (conj _ _))))); auto; try congruence.
  rewrite HS4, G. fold a. rewrite <- app_assoc. reflexivity.
Qed.
